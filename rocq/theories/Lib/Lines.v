(** Text files as lists of lines (without the line terminator), and the ways the readers
    consume them. *)
From Verif.Lib Require Import Base Text.

(** Floating point numbers are opaque: a type with the formatting used by a writer, the
    parsing used by the reader and the number 0.  What theorems assume about them is
    [floats_ok]. *)
Record floats : Type := Floats {
  fval :> Type;
  ffmt : fval -> string;
  fparse : string -> option fval;
  fzero : fval }.
Arguments ffmt {f} _.
Arguments fparse {f} _.
Arguments fzero {f}.

(** Printed numbers contain no blanks and are parsed to the same number (for IEEE doubles:
    printing with 17 significant digits). *)
Definition floats_ok (fl : floats) : Prop :=
  forall v : fl, word (ffmt v) = true /\ fparse (ffmt v) = Some v.

(** The instance used to show that the hypothesis can be met: integers. *)
Definition int_floats : floats := Floats Z str_of_Z parse_Z 0%Z.

(** [s.lstrip()], [s.rstrip()], [s.strip()] *)
Fixpoint lstrip (s : string) : string :=
  match s with
  | EmptyString => ""
  | String a s' => if is_space a then lstrip s' else s
  end.
Fixpoint rstrip (s : string) : string :=
  match s with
  | EmptyString => ""
  | String a s' => match rstrip s' with
                   | EmptyString => if is_space a then "" else String a ""
                   | t => String a t
                   end
  end.
Definition strip (s : string) : string := rstrip (lstrip s).

(** [len(line.strip()) == 0] *)
Definition blank (s : string) : bool :=
  match split_ws s with [] => true | _ => false end.

(** [f.readline()] yields "" at the end of the file. *)
Definition line1 (ls : list string) : string := hd "" ls.

(** [int(line)] *)
Definition int_line (s : string) : result Z := of_option ValueError (parse_Z (strip s)).

(** [for _ in range(n): f(readline())] *)
Fixpoint read_lines {A} (f : string -> result A) (n : nat) (ls : list string)
  : result (list A * list string) :=
  match n with
  | O => Ok ([], ls)
  | S n' => do x <- f (line1 ls);
            do r <- read_lines f n' (tl ls);
            Ok (x :: fst r, snd r)
  end.

Fixpoint drop_blank (ls : list string) : list string :=
  match ls with
  | [] => []
  | l :: ls' => if blank l then drop_blank ls' else ls
  end.

(** [np.fromfile(f, sep=" ", count=n)]: the next [n] blank separated tokens, over as many
    lines as needed; the rest of a line and the blanks after the last token: numpy skips the
    separator after every item.  None if the file is too short. *)
Fixpoint take_tokens_pos (n : nat) (ls : list string) : option (list string * list string) :=
  match ls with
  | [] => None
  | l :: ls' =>
      let t := split_ws l in
      if Nat.ltb (length t) n
      then match take_tokens_pos (n - length t) ls' with
           | Some (ts, rest) => Some (t ++ ts, rest)
           | None => None
           end
      else Some (firstn n t, drop_blank (join " " (skipn n t) :: ls'))
  end.
Definition take_tokens (n : nat) (ls : list string) : option (list string * list string) :=
  match n with O => Some ([], ls) | _ => take_tokens_pos n ls end.

(** Skip to the line after the one that equals [s] up to surrounding blanks. *)
Fixpoint skip_to (s : string) (ls : list string) : list string :=
  match ls with
  | [] => []
  | l :: ls' => if String.eqb (strip l) s then ls' else skip_to s ls'
  end.

(** A line of tokens separated by one blank. *)
Definition row_line (ts : list string) : string := join " " ts.

Definition parse_ints (ts : list string) : result (list Z) := mapM (fun t => of_option ValueError (parse_Z t)) ts.
Definition parse_floats {fl : floats} (ts : list string) : result (list fl) :=
  mapM (fun t => of_option ValueError (fparse t)) ts.
