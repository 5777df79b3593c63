(** XML documents as character strings: the writer src/meshio/_cxml/etree.py, and the part of Python's xml.etree.ElementTree
    that the readers use.  ElementTree is not part of the repository; the parser below models what it does with elements,
    attributes, text, comments and the five named entities. *)
From Coq Require Import List String Ascii Bool Arith.
From Verif.Lib Require Import Base Text.
Import ListNotations.

Notation chars := (list ascii).
Definition ch (s : string) : chars := list_ascii_of_string s.
Definition lf : ascii := ascii_of_nat 10.
Definition quote : ascii := ascii_of_nat 34.
Definition apos : ascii := ascii_of_nat 39.

(** ** Writer *)
(** src/meshio/_cxml/etree.py:10-37,46-51 [Element], [SubElement], [Comment].  The text is what [text_writer] writes. *)
Inductive xelem : Type :=
| XElem (tag : string) (attrs : list (string * string)) (text : option chars) (children : list xelem)
| XComment (text : string).

(** etree.py:24-26: attribute values are written as they are *)
Definition print_attr (kv : string * string) : chars := " "%char :: ch (fst kv) ++ ["="%char; quote] ++ ch (snd kv) ++ [quote].
Definition open_tag (tag : string) (attrs : list (string * string)) : chars :=
  "<"%char :: ch tag ++ concat (map print_attr attrs) ++ [">"%char].
Definition close_tag (tag : string) : chars := "<"%char :: "/"%char :: ch tag ++ [">"%char].

(** etree.py:24-37,50-51 [write] *)
Fixpoint print_elem (e : xelem) : chars :=
  match e with
  | XElem tag attrs text children =>
      open_tag tag attrs ++ [lf] ++
      match text with Some t => t ++ [lf] | None => [] end ++
      concat (map print_elem children) ++ close_tag tag ++ [lf]
  | XComment t => ch "<!--" ++ ch t ++ ch "-->" ++ [lf]
  end.

(** etree.py:57-62 [ElementTree.write] *)
Definition xml_declaration : chars := ch "<?xml version=" ++ [quote] ++ ch "1.0" ++ [quote] ++ ch "?>" ++ [lf].
Definition print_doc (e : xelem) : chars := xml_declaration ++ print_elem e.

(** ** Parser *)
(** An element as ElementTree gives it: tag, attributes, the text before the first child (empty if there is none; the
    code then sees None), children.  The text between children is dropped. *)
Inductive xnode : Type := XNode (tag : string) (attrs : dict string) (text : chars) (children : list xnode).
Definition xtag (n : xnode) : string := let 'XNode t _ _ _ := n in t.
Definition xattrs (n : xnode) : dict string := let 'XNode _ a _ _ := n in a.
Definition xtext (n : xnode) : chars := let 'XNode _ _ t _ := n in t.
Definition xchildren (n : xnode) : list xnode := let 'XNode _ _ _ c := n in c.

(** White space of XML *)
Definition xspace (c : ascii) : bool := let n := nat_of_ascii c in Nat.eqb n 32 || Nat.eqb n 9 || Nat.eqb n 10 || Nat.eqb n 13.
(** Control characters other than white space are not allowed.  Simplification: characters from 128 on are the bytes of UTF-8
    and all allowed. *)
Definition legal (c : ascii) : bool := Nat.leb 32 (nat_of_ascii c) || xspace c.
(** Simplification: digits, "-" and "." are also accepted at the beginning of a name. *)
Definition name_char (c : ascii) : bool :=
  let n := nat_of_ascii c in
  (Nat.leb 48 n && Nat.leb n 57) || (Nat.leb 65 n && Nat.leb n 90) || (Nat.leb 97 n && Nat.leb n 122) ||
  Nat.eqb n 95 || Nat.eqb n 58 || Nat.eqb n 45 || Nat.eqb n 46 || Nat.leb 128 n.

Fixpoint span (f : ascii -> bool) (s : chars) : chars * chars :=
  match s with
  | [] => ([], [])
  | c :: r => if f c then let '(a, b) := span f r in (c :: a, b) else ([], s)
  end.
Definition drop_space (s : chars) : chars := snd (span xspace s).
Fixpoint strip_prefix (p s : chars) : option chars :=
  match p, s with
  | [], _ => Some s
  | a :: p', c :: s' => if Ascii.eqb a c then strip_prefix p' s' else None
  | _, [] => None
  end.

(** Entities.  Simplification: numeric character references are errors. *)
Definition entities : list (string * ascii) :=
  [("lt;", "<"%char); ("gt;", ">"%char); ("amp;", "&"%char); ("quot;", quote); ("apos;", apos)].
Fixpoint entity (l : list (string * ascii)) (s : chars) : option (ascii * chars) :=
  match l with
  | [] => None
  | (e, c) :: l' => match strip_prefix (ch e) s with Some r => Some (c, r) | None => entity l' s end
  end.
(** The characters of a text or an attribute value; [norm] replaces white space in attribute values by blanks.
    Simplification: CR LF is not merged. *)
Fixpoint unescape (norm : bool) (fuel : nat) (s : chars) : option chars :=
  match fuel with
  | O => None
  | S k =>
      match s with
      | [] => Some []
      | c :: r =>
          if negb (legal c) then None else
          if Ascii.eqb c "&" then
            match entity entities r with
            | Some (d, r') => option_map (cons d) (unescape norm k r')
            | None => None
            end
          else option_map (cons (if norm && xspace c then " "%char else c)) (unescape norm k r)
      end
  end.
Definition text_value (s : chars) : option chars := unescape false (S (length s)) s.
Definition attr_value (s : chars) : option chars := unescape true (S (length s)) s.

(** Attributes up to the end of the tag; the boolean tells whether the tag is closed by "/>". *)
Fixpoint attributes (fuel : nat) (s : chars) : option (dict string * bool * chars) :=
  match fuel with
  | O => None
  | S k =>
      match strip_prefix [">"%char] (drop_space s) with
      | Some r => Some ([], false, r)
      | None =>
          match strip_prefix ["/"%char; ">"%char] (drop_space s) with
          | Some r => Some ([], true, r)
          | None =>
              match s with
              | c :: _ =>
                  if negb (xspace c) then None else
                  let '(name, s1) := span name_char (drop_space s) in
                  match name with [] => None | _ =>
                    match strip_prefix ["="%char] (drop_space s1) with
                    | None => None
                    | Some s2 =>
                        match drop_space s2 with
                        | [] => None
                        | q :: s3 =>
                            if negb (Ascii.eqb q quote || Ascii.eqb q apos) then None else
                            let '(raw, s4) := span (fun c => negb (Ascii.eqb c q)) s3 in
                            if existsb (Ascii.eqb "<") raw then None else
                            match attr_value raw, s4 with
                            | Some v, _ :: s5 =>
                                match attributes k s5 with
                                | Some (l, e, r) =>
                                    let n := string_of_list_ascii name in
                                    if dmem n l then None else Some ((n, string_of_list_ascii v) :: l, e, r)
                                | None => None
                                end
                            | _, _ => None
                            end
                        end
                    end
                  end
              | [] => None
              end
          end
      end
  end.

(** What follows the end of a comment *)
Fixpoint after_comment (s : chars) : option chars :=
  match strip_prefix (ch "-->") s with
  | Some r => Some r
  | None => match s with [] => None | _ :: r => after_comment r end
  end.

(** The end tag of an element *)
Definition end_tag (tag s : chars) : option chars :=
  match strip_prefix ("<"%char :: "/"%char :: tag) s with
  | Some r => strip_prefix [">"%char] (drop_space r)
  | None => None
  end.

(** Content up to the next end tag: the text before the first child, the children, the end tag and what follows.
    Simplification: CDATA sections, processing instructions and DTDs are errors. *)
Fixpoint content (fuel : nat) (s : chars) : option (chars * list xnode * chars) :=
  match fuel with
  | O => None
  | S k =>
      let '(raw, s1) := span (fun c => negb (Ascii.eqb c "<")) s in
      match text_value raw with
      | None => None
      | Some t =>
          match strip_prefix ["<"%char; "/"%char] s1 with
          | Some _ => Some (t, [], s1)
          | None =>
              match strip_prefix (ch "<!--") s1 with
              | Some s2 =>
                  match after_comment s2 with
                  | Some s3 => match content k s3 with Some (t', cs, r) => Some (t ++ t', cs, r) | None => None end
                  | None => None
                  end
              | None =>
                  match strip_prefix ["<"%char] s1 with
                  | None => None
                  | Some s2 =>
                      let '(name, s3) := span name_char s2 in
                      match name with [] => None | _ =>
                        match attributes (S (length s3)) s3 with
                        | None => None
                        | Some (attrs, closed, s4) =>
                            let inner := if closed then Some ([], [], s4) else
                              match content k s4 with
                              | Some (t1, cs, s5) =>
                                  match end_tag name s5 with Some s6 => Some (t1, cs, s6) | None => None end
                              | None => None
                              end in
                            match inner with
                            | None => None
                            | Some (t1, cs, s6) =>
                                match content k s6 with
                                | Some (_, sibs, r) => Some (t, XNode (string_of_list_ascii name) attrs t1 cs :: sibs, r)
                                | None => None
                                end
                            end
                        end
                      end
                  end
              end
          end
      end
  end.

(** [ET.parse(filename).getroot()]; None for ParseError.  A document is read as the content of an element whose end tag
    follows the document.  Simplification: text before and after the root element is ignored. *)
Definition skip_declaration (s : chars) : chars :=
  match strip_prefix (ch "<?xml") s with
  | Some r => match snd (span (fun c => negb (Ascii.eqb c ">")) r) with [] => [] | _ :: r' => r' end
  | None => s
  end.
Definition parse_doc (s : chars) : option xnode :=
  let d := skip_declaration s ++ ["<"%char; "/"%char] in
  match content (S (length d)) d with
  | Some (_, [n], r) => if Nat.eqb (length r) 2 then Some n else None
  | _ => None
  end.
