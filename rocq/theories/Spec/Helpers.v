(** Specification of the format registry in terms of the history of calls (C11-C14). *)
From Verif.Lib Require Import Base Text.
From Verif.Model Require Import Core Helpers.

Section Hist.
Context {R W : Type}.

(** One call by a user (or by a format module at import time). *)
Inductive op : Type :=
| Register (fmt : string) (extensions : list string) (reader : option R) (writers : dict W)
| Deregister (fmt : string).

Definition step (o : op) (r : registry R W) : registry R W :=
  match o with
  | Register f e rd w => register_format f e rd w r
  | Deregister f => deregister_format f r
  end.

(** The registry after a history of calls. *)
Definition run (h : list op) : registry R W := fold_left (fun r o => step o r) h empty_registry.

(** The reader a user expects: scanning the history from its latest call backwards, the
    first call that concerns [fmt] decides. *)
Fixpoint last_reader (fmt : string) (latest_first : list op) : option R :=
  match latest_first with
  | [] => None
  | Register f _ rd _ :: older =>
      if String.eqb fmt f && (match rd with Some _ => true | None => false end)
      then rd else last_reader fmt older
  | Deregister f :: older => if String.eqb fmt f then None else last_reader fmt older
  end.

(** Likewise for writers; one registration may provide several (named) writers, the last
    entry for a name counts. *)
Fixpoint last_writer (fmt : string) (latest_first : list op) : option W :=
  match latest_first with
  | [] => None
  | Register _ _ _ ws :: older =>
      match dget fmt (rev ws) with Some w => Some w | None => last_writer fmt older end
  | Deregister f :: older => if String.eqb fmt f then None else last_writer fmt older
  end.

(** Remove the oldest entry equal to [f]. *)
Fixpoint drop_oldest (f : string) (l : list string) : list string :=
  match l with
  | [] => []
  | y :: ys => if String.eqb f y then ys else y :: drop_oldest f ys
  end.

(** Formats an extension stands for: in registration order, each deregistration
    cancelling one registration. *)
Definition ext_spec (x : string) (h : list op) : list string :=
  fold_left (fun l o =>
    match o with
    | Register f exts _ _ => l ++ repeat f (count_occ string_dec exts x)
    | Deregister f => drop_oldest f l
    end) h [].

End Hist.
Arguments op : clear implicits.

(** The nonempty tails of the list of dot-separated parts, shortest first: for
    ["a"; "b"; "c"] they are ["c"], ["b"; "c"], ["a"; "b"; "c"]. *)
Fixpoint tails (l : list string) : list (list string) :=
  match l with
  | [] => []
  | x :: xs => tails xs ++ [x :: xs]
  end.

(** The extension written by a tail of parts: ".b.c". *)
Fixpoint dotted (l : list string) : string :=
  match l with
  | [] => ""
  | x :: xs => ("." ++ x ++ dotted xs)%string
  end.

(** Formats registered for an extension. *)
Definition formats_for (exts : dict (list string)) (e : string) : list string :=
  match dget e exts with Some l => l | None => [] end.

(** Outcome of trying candidate formats in order, in words: the first candidate whose
    reader does not raise ReadError decides. *)
Inductive tries {File M} (rm : dict (reader File M)) (f : File)
  : list string -> list string -> result M -> Prop :=
| tries_none : tries rm f [] [] (Err SystemExit)
| tries_unknown fmt rest : ~ In fmt (map fst rm) -> tries rm f (fmt :: rest) [] (Err ReadError)
| tries_hit fmt rest rd out :
    In (fmt, rd) rm -> rd f = out -> out <> Err ReadError ->
    tries rm f (fmt :: rest) [fmt] out
| tries_skip fmt rest rd called out :
    In (fmt, rd) rm -> rd f = Err ReadError -> tries rm f rest called out ->
    tries rm f (fmt :: rest) (fmt :: called) out.
