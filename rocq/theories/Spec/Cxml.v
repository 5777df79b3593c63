(** Characters that mean themselves in XML documents. *)
From Coq Require Import List String Ascii Bool Arith.
From Verif.Lib Require Import Base Text.
From Verif.Model Require Import Cxml.
Import ListNotations.

(** No markup and no control characters *)
Definition plain_char (c : ascii) : bool := legal c && negb (Ascii.eqb c "<") && negb (Ascii.eqb c "&").
Definition plain (w : chars) : bool := forallb plain_char w.
(** White space in attribute values is read as blanks *)
Definition blank_out (c : ascii) : ascii := if xspace c then " "%char else c.
(** Attribute values that are read as they were written: printable characters other than less-than signs, ampersands and
    double quotes *)
Definition value_char (c : ascii) : bool := Nat.leb 32 (nat_of_ascii c) && negb (Ascii.eqb c quote) && plain_char c.
Definition value_ok (s : string) : bool := forallb value_char (ch s).
(** Tags and names of attributes *)
Definition tag_ok (s : string) : bool := match s with EmptyString => false | _ => forallb name_char (ch s) end.
(** Comments without hyphens *)
Definition comment_ok (s : string) : bool := forallb (fun c => negb (Ascii.eqb c "-")) (ch s).

(** Elements whose names, values and texts mean themselves *)
Fixpoint elem_ok (e : xelem) : Prop :=
  match e with
  | XElem tag attrs text children =>
      tag_ok tag = true /\ Forall (fun kv => tag_ok (fst kv) = true /\ value_ok (snd kv) = true) attrs /\
      NoDup (map fst attrs) /\ match text with Some t => plain t = true | None => True end /\
      fold_right and True (map elem_ok children)
  | XComment t => comment_ok t = true
  end.

(** What a reader sees: no comments, line feeds around the text *)
Fixpoint lead (es : list xelem) : chars := match es with XComment _ :: es' => lf :: lead es' | _ => [] end.
Fixpoint seen (e : xelem) : list xnode :=
  match e with
  | XElem tag attrs text children =>
      [XNode tag attrs ((lf :: match text with Some t => t ++ [lf] | None => [] end) ++ lead children) (concat (map seen children))]
  | XComment _ => []
  end.
