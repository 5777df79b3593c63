(** Byte strings, fixed-width integers, item buffers and base64. *)
From Verif.Lib Require Import Base Facts Facts2.
From Coq Require Import NArith ZifyBool ZifyN ZifyNat.

Notation bytes := (list N).
Definition is_byte (b : N) : Prop := (b < 256)%N.

(** ** Unsigned integers of [w] bytes, least significant byte first *)
Fixpoint le_bytes (w : nat) (n : N) : bytes :=
  match w with
  | O => []
  | S w' => (n mod 256)%N :: le_bytes w' (n / 256)%N
  end.
Fixpoint le_value (l : bytes) : N :=
  match l with
  | [] => 0%N
  | b :: l' => (b + 256 * le_value l')%N
  end.
(** With a byte-order flag: [big = true] is most significant byte first. *)
Definition uint_bytes (big : bool) (w : nat) (n : N) : bytes :=
  if big then rev (le_bytes w n) else le_bytes w n.
Definition uint_value (big : bool) (l : bytes) : N := le_value (if big then rev l else l).
Definition capacity (w : nat) : N := (256 ^ N.of_nat w)%N.

(** Signed integers, two's complement. *)
Definition sint_bytes (big : bool) (w : nat) (z : Z) : bytes :=
  uint_bytes big w (Z.to_N (z mod Z.of_N (capacity w))).
Definition sint_value (big : bool) (l : bytes) : Z :=
  let n := Z.of_N (uint_value big l) in
  let c := Z.of_N (capacity (length l)) in
  if (2 * n <? c)%Z then n else (n - c)%Z.

(** [np.frombuffer(b, dtype)] with items of [k] bytes; ValueError if [k] does not divide
    the length. *)
Definition frombuffer (k : nat) (b : bytes) : result (list bytes) :=
  if Nat.eqb (length b mod k) 0 then Ok (chunks k b) else Err ValueError.

(** ** Base64 (RFC 4648 alphabet), as in Python's base64.b64encode / b64decode *)
Definition b64_char (n : N) : ascii :=
  ascii_of_N (if n <? 26 then n + 65 else if n <? 52 then n + 71 else if n <? 62 then n - 4
              else if n =? 62 then 43 else 47)%N.
Definition b64_val (c : ascii) : option N :=
  let n := N_of_ascii c in
  (if (65 <=? n) && (n <=? 90) then Some (n - 65)
   else if (97 <=? n) && (n <=? 122) then Some (n - 71)
   else if (48 <=? n) && (n <=? 57) then Some (n + 4)
   else if n =? 43 then Some 62 else if n =? 47 then Some 63 else None)%N.
Definition b64_pad : ascii := "="%char.

Fixpoint b64encode (l : bytes) : list ascii :=
  match l with
  | [] => []
  | [a] => [b64_char (a / 4); b64_char (a mod 4 * 16); b64_pad; b64_pad]
  | [a; b] => [b64_char (a / 4); b64_char (a mod 4 * 16 + b / 16); b64_char (b mod 16 * 4); b64_pad]
  | a :: b :: c :: l' =>
      b64_char (a / 4) :: b64_char (a mod 4 * 16 + b / 16) ::
      b64_char (b mod 16 * 4 + c / 64) :: b64_char (c mod 64) :: b64encode l'
  end%N.

(** binascii.a2b_base64, not strict: characters outside the alphabet are skipped, a
    completed padding ends the decoding, an incomplete group at the end is an error.
    [q]: characters in the current group, [left]: pending bits, [pads]: padding seen. *)
Fixpoint b64decode_from (q : nat) (left : N) (pads : nat) (s : list ascii) : result bytes :=
  match s with
  | [] => if Nat.eqb q 0 then Ok [] else Err ValueError
  | c :: s' =>
      if Ascii.eqb c b64_pad then
        if Nat.leb 2 q then
          if Nat.leb 4 (q + S pads) then Ok [] else b64decode_from q left (S pads) s'
        else b64decode_from q left pads s'
      else match b64_val c with
           | None => b64decode_from q left pads s'
           | Some v =>
               match q with
               | 0 => b64decode_from 1 v 0 s'
               | 1 => do r <- b64decode_from 2 (v mod 16)%N 0 s'; Ok ((left * 4 + v / 16)%N :: r)
               | 2 => do r <- b64decode_from 3 (v mod 4)%N 0 s'; Ok ((left * 16 + v / 4)%N :: r)
               | _ => do r <- b64decode_from 0 0%N 0 s'; Ok ((left * 64 + v)%N :: r)
               end
           end
  end.
Definition b64decode (s : list ascii) : result bytes := b64decode_from 0 0%N 0 s.
