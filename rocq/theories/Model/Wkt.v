(** Model of src/meshio/wkt/_wkt.py. *)
From Verif.Lib Require Import Base Text TextFacts Lines Runs.
From Verif.Model Require Import Core.

(** ** The regular expressions
    _wkt.py:13-26.  A match of these patterns is unique: what may follow a number, a blank or a
    bracket cannot belong to it, so backtracking never finds another one.  They are modelled by
    functions that consume a prefix and fail with ReadError if there is no match.
    Simplification: only ASCII digits and blanks. *)

(** \s* *)
Fixpoint skip_ws (s : string) : string :=
  match s with
  | EmptyString => ""
  | String c s' => if is_space c then skip_ws s' else s
  end.
(** \s+ *)
Definition ws1 (s : string) : result string :=
  match s with
  | String c s' => if is_space c then Ok (skip_ws s') else Err ReadError
  | EmptyString => Err ReadError
  end.
Definition char (c : ascii) (s : string) : result string :=
  match s with
  | String a s' => if Ascii.eqb a c then Ok s' else Err ReadError
  | EmptyString => Err ReadError
  end.
(** \d* *)
Fixpoint take_digits (s : string) : string * string :=
  match s with
  | EmptyString => ("", "")
  | String c s' => if is_digit c then let '(d, r) := take_digits s' in (String c d, r) else ("", s)
  end.
(** [+-]? *)
Definition opt_sign (s : string) : string * string :=
  match s with
  | String c s' => if Ascii.eqb c "+" || Ascii.eqb c "-" then (String c "", s') else ("", s)
  | EmptyString => ("", "")
  end.
(** \.? *)
Definition opt_char (c : ascii) (s : string) : string * string :=
  match s with
  | String a s' => if Ascii.eqb a c then (String a "", s') else ("", s)
  | EmptyString => ("", "")
  end.
(** [float_pattern] *)
Definition float_tok (s : string) : result (string * string) :=
  let '(sg, s1) := opt_sign s in
  let '(d1, s2) := take_digits s1 in
  let '(dot, s3) := opt_char "." s2 in
  let '(d2, s4) := take_digits s3 in
  if String.eqb d1 "" && String.eqb d2 "" then Err ReadError else Ok ((sg ++ d1 ++ dot ++ d2)%string, s4).
(** \s+ and a number *)
Definition more_tok (s : string) : result (string * string) := do s1 <- ws1 s; float_tok s1.
(** [point_pattern] *)
Definition point_tok (s : string) : result (list string * string) :=
  do a <- float_tok s;
  do b <- more_tok (snd a);
  do c <- more_tok (snd b);
  match more_tok (snd c) with
  | Ok d => Ok ([fst a; fst b; fst c; fst d], snd d)
  | Err _ => Ok ([fst a; fst b; fst c], snd c)
  end.
(** \s*,\s* and a point *)
Definition next_point (s : string) : result (list string * string) :=
  do s1 <- char "," (skip_ws s); point_tok (skip_ws s1).
(** [triangle_pattern] *)
Definition triangle_tok (s : string) : result (list (list string) * string) :=
  do s1 <- char "(" s;
  do s2 <- char "(" (skip_ws s1);
  do p0 <- point_tok (skip_ws s2);
  do p1 <- next_point (snd p0);
  do p2 <- next_point (snd p1);
  do p3 <- next_point (snd p2);
  do s3 <- char ")" (skip_ws (snd p3));
  do s4 <- char ")" (skip_ws s3);
  Ok ([fst p0; fst p1; fst p2; fst p3], s4).
(** the repetition in [tin_pattern] *)
Fixpoint triangles_tok (fuel : nat) (s : string) : list (list (list string)) * string :=
  match fuel with
  | O => ([], s)
  | S f =>
      match triangle_tok (skip_ws s) with
      | Err _ => ([], s)
      | Ok (t, r) => let '(ts, r') := triangles_tok f (snd (opt_char "," (skip_ws r))) in (t :: ts, r')
      end
  end.
(** [tin_pattern]; what follows the closing bracket is ignored. *)
Definition tin_tok (s : string) : result (list (list (list string))) :=
  do s1 <- char "T" s;
  do s2 <- char "I" s1;
  do s3 <- char "N" s2;
  do s4 <- char "(" (skip_ws s3);
  let '(ts, r) := triangles_tok (String.length s4) s4 in
  do _ <- char ")" (skip_ws r);
  Ok ts.

Section Wkt.
Context {fl : floats}.
(** Equality of tuples of floats, as used by the dict of points *)
Variable peq : list fl -> list fl -> bool.

(** _wkt.py:42-44: the index of a point, new points are appended *)
Fixpoint position (p : list fl) (pts : list (list fl)) : option nat :=
  match pts with
  | [] => None
  | q :: pts' => if peq q p then Some 0 else option_map S (position p pts')
  end.
Definition add_point (pts : list (list fl)) (p : list fl) : list (list fl) * nat :=
  match position p pts with
  | Some i => (pts, i)
  | None => (pts ++ [p], length pts)
  end.
Fixpoint add_points (pts : list (list fl)) (ps : list (list fl)) : list (list fl) * list nat :=
  match ps with
  | [] => (pts, [])
  | p :: ps' =>
      let '(pts1, i) := add_point pts p in
      let '(pts2, is) := add_points pts1 ps' in (pts2, i :: is)
  end.

(** _wkt.py:35-49: the loop over the triangles *)
Fixpoint add_triangles (pts : list (list fl)) (ts : list (list (list string)))
  : result (list (list fl) * list cell) :=
  match ts with
  | [] => Ok (pts, [])
  | t :: ts' =>
      do ps <- mapM parse_floats t;
      let '(pts1, is) := add_points pts ps in
      if Nat.eqb (last is 0) (hd 0 is) then
        do r <- add_triangles pts1 ts';
        Ok (fst r, map Z.of_nat (butlast is) :: snd r)
      else Err ValueError
  end.

(** _wkt.py:29-61 [read_str] *)
Definition read_wkt (s : string) : result (list (list fl) * list block) :=
  do ts <- tin_tok (strip s);
  do r <- add_triangles [] ts;
  if forallb (fun p => Nat.eqb (length p) (length (hd [] (fst r)))) (fst r)
  then Ok (fst r, [Block "triangle" (snd r)])
  else Err ReadError.

(** _wkt.py:64-65 [arr_to_str] *)
Definition point_str (p : list fl) : string := join " " (map ffmt p).
Definition triangle_str (t : list (list fl)) : result string :=
  match t with
  | [a; b; c] => Ok ("((" ++ point_str a ++ ", " ++ point_str b ++ ", " ++ point_str c ++ ", " ++ point_str a ++ "))")%string
  | _ => Err IndexError
  end.
(** _wkt.py:78-95 [write_buffer] *)
Definition write_wkt (pts : list (list fl)) (bs : list block) : result string :=
  do tri <- get_cells_type bs "triangle";
  do cs <- mapM (gather pts) tri;
  do strs <- mapM triangle_str cs;
  Ok ("TIN (" ++ join ", " strs ++ ")")%string.
End Wkt.
