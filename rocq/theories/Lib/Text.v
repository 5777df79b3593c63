(** Text: decimal integers, splitting and joining, as done by Python's [str]
    methods, [int()] and f-strings. *)
From Verif.Lib Require Import Base.

(** ** Decimal integers *)

(** Decimal rendering of an integer, as in an f-string ("{}".format). *)
Fixpoint dec_digits (fuel : nat) (n : N) (acc : string) : string :=
  match fuel with
  | O => acc
  | S f =>
      let d := String (ascii_of_N (48 + n mod 10)) acc in
      if (n <? 10)%N then d else dec_digits f (n / 10) d
  end.
Definition str_of_N (n : N) : string := dec_digits (S (N.to_nat (N.log2 n))) n "".
Definition str_of_Z (z : Z) : string :=
  match z with
  | Z0 => "0"
  | Zpos p => str_of_N (Npos p)
  | Zneg p => String "-" (str_of_N (Npos p))
  end.
Definition str_of_nat (n : nat) : string := str_of_N (N.of_nat n).

Definition digit_val (a : ascii) : option N :=
  let n := N_of_ascii a in
  if (48 <=? n)%N && (n <=? 57)%N then Some (n - 48)%N else None.

Fixpoint parse_digits (acc : N) (s : string) : option N :=
  match s with
  | EmptyString => Some acc
  | String a s' => match digit_val a with
                   | Some d => parse_digits (acc * 10 + d)%N s'
                   | None => None
                   end
  end.

(** [int(s)] on a token without blanks.  Simplification: no digit-group
    underscores and no non-ASCII digits. *)
Definition parse_N (s : string) : option N :=
  match s with EmptyString => None | _ => parse_digits 0 s end.
Definition parse_Z (s : string) : option Z :=
  match s with
  | String "-"%char s' => match parse_N s' with Some n => Some (- Z.of_N n)%Z | None => None end
  | String "+"%char s' => match parse_N s' with Some n => Some (Z.of_N n) | None => None end
  | _ => match parse_N s with Some n => Some (Z.of_N n) | None => None end
  end.

(** ** Splitting and joining *)

(** [sep.join(strings)] *)
Definition join (sep : string) (l : list string) : string := String.concat sep l.

(** [s.split(c)] for a one-character separator. *)
Fixpoint split_char (c : ascii) (s : string) : list string :=
  match s with
  | EmptyString => [""]
  | String a s' =>
      if Ascii.eqb a c then "" :: split_char c s'
      else match split_char c s' with
           | [] => [String a ""]
           | x :: xs => String a x :: xs
           end
  end.

(** Python whitespace among ASCII characters (str.isspace). *)
Definition is_space (a : ascii) : bool :=
  let n := nat_of_ascii a in
  Nat.eqb n 32 || (Nat.leb 9 n && Nat.leb n 13) || (Nat.leb 28 n && Nat.leb n 31).

(** [s.split()]: maximal runs of non-blank characters. *)
Fixpoint split_ws_acc (cur : string) (s : string) : list string :=
  match s with
  | EmptyString => match cur with EmptyString => [] | _ => [cur] end
  | String a s' =>
      if is_space a
      then match cur with
           | EmptyString => split_ws_acc "" s'
           | _ => cur :: split_ws_acc "" s'
           end
      else split_ws_acc (cur ++ String a "")%string s'
  end.
Definition split_ws (s : string) : list string := split_ws_acc "" s.

(** [c in s] for a character *)
Fixpoint char_in (c : ascii) (s : string) : bool :=
  match s with
  | EmptyString => false
  | String a s' => Ascii.eqb c a || char_in c s'
  end.

(** A nonempty string without blanks: one token of a whitespace separated line. *)
Fixpoint no_space (s : string) : bool :=
  match s with EmptyString => true | String a s' => negb (is_space a) && no_space s' end.
Definition word (s : string) : bool :=
  match s with EmptyString => false | _ => no_space s end.

Definition nl : string := String (ascii_of_nat 10) "".
