(** Model of src/meshio/gmsh/common.py: tables, node orders, tag lookup, physical names and
    the data sections shared by all MSH versions. *)
From Verif.Lib Require Import Base Text Lines Runs.
From Verif.Model Require Import Core.

(** src/meshio/gmsh/common.py:94-160 [_gmsh_to_meshio_type] *)
Definition gmsh_to_meshio_type : zdict string := [
  (1%Z, "line"); (2%Z, "triangle"); (3%Z, "quad"); (4%Z, "tetra"); (5%Z, "hexahedron");
  (6%Z, "wedge"); (7%Z, "pyramid"); (8%Z, "line3"); (9%Z, "triangle6"); (10%Z, "quad9");
  (11%Z, "tetra10"); (12%Z, "hexahedron27"); (13%Z, "wedge18"); (14%Z, "pyramid14");
  (15%Z, "vertex"); (16%Z, "quad8"); (17%Z, "hexahedron20"); (18%Z, "wedge15");
  (19%Z, "pyramid13"); (21%Z, "triangle10"); (23%Z, "triangle15"); (25%Z, "triangle21");
  (26%Z, "line4"); (27%Z, "line5"); (28%Z, "line6"); (29%Z, "tetra20"); (30%Z, "tetra35");
  (31%Z, "tetra56"); (36%Z, "quad16"); (37%Z, "quad25"); (38%Z, "quad36");
  (42%Z, "triangle28"); (43%Z, "triangle36"); (44%Z, "triangle45"); (45%Z, "triangle55");
  (46%Z, "triangle66"); (47%Z, "quad49"); (48%Z, "quad64"); (49%Z, "quad81");
  (50%Z, "quad100"); (51%Z, "quad121"); (62%Z, "line7"); (63%Z, "line8"); (64%Z, "line9");
  (65%Z, "line10"); (66%Z, "line11"); (71%Z, "tetra84"); (72%Z, "tetra120");
  (73%Z, "tetra165"); (74%Z, "tetra220"); (75%Z, "tetra286"); (90%Z, "wedge40");
  (91%Z, "wedge75"); (92%Z, "hexahedron64"); (93%Z, "hexahedron125");
  (94%Z, "hexahedron216"); (95%Z, "hexahedron343"); (96%Z, "hexahedron512");
  (97%Z, "hexahedron729"); (98%Z, "hexahedron1000"); (106%Z, "wedge126");
  (107%Z, "wedge196"); (108%Z, "wedge288"); (109%Z, "wedge405"); (110%Z, "wedge550") ].

(** src/meshio/gmsh/common.py:161 [_meshio_to_gmsh_type] *)
Definition meshio_to_gmsh_type : dict Z := map (fun kv => (snd kv, fst kv)) gmsh_to_meshio_type.

(** src/meshio/gmsh/common.py:164-187 [_gmsh_to_meshio_order]: the table *)
Definition meshio_ordering : dict (list nat) := [
  ("tetra10", [0; 1; 2; 3; 4; 5; 6; 7; 9; 8]);
  ("hexahedron20", [0; 1; 2; 3; 4; 5; 6; 7; 8; 11; 13; 9; 16; 18; 19; 17; 10; 12; 14; 15]);
  ("hexahedron27", [0; 1; 2; 3; 4; 5; 6; 7; 8; 11; 13; 9; 16; 18; 19; 17; 10; 12; 14; 15;
                    22; 23; 21; 24; 20; 25; 26]);
  ("wedge15", [0; 1; 2; 3; 4; 5; 6; 9; 7; 12; 14; 13; 8; 10; 11]);
  ("pyramid13", [0; 1; 2; 3; 4; 5; 8; 10; 6; 7; 9; 11; 12]) ].
(** src/meshio/gmsh/common.py:190-213 [_meshio_to_gmsh_order]: the table *)
Definition gmsh_ordering : dict (list nat) := [
  ("tetra10", [0; 1; 2; 3; 4; 5; 6; 7; 9; 8]);
  ("hexahedron20", [0; 1; 2; 3; 4; 5; 6; 7; 8; 11; 16; 9; 17; 10; 18; 19; 12; 15; 13; 14]);
  ("hexahedron27", [0; 1; 2; 3; 4; 5; 6; 7; 8; 11; 16; 9; 17; 10; 18; 19; 12; 15; 13; 14;
                    24; 22; 20; 21; 23; 25; 26]);
  ("wedge15", [0; 1; 2; 3; 4; 5; 6; 8; 12; 7; 13; 14; 9; 11; 10]);
  ("pyramid13", [0; 1; 2; 3; 4; 5; 8; 9; 6; 10; 7; 11; 12]) ].

(** [idx[:, table[cell_type]]], one row; a type without entry is left alone. *)
Definition apply_order {A} (table : dict (list nat)) (t : string) (row : list A) : result (list A) :=
  match dget t table with
  | None => Ok row
  | Some p => of_option IndexError (permute p row)
  end.
Definition gmsh_to_meshio_order {A} (t : string) (row : list A) : result (list A) :=
  apply_order meshio_ordering t row.
Definition meshio_to_gmsh_order {A} (t : string) (row : list A) : result (list A) :=
  apply_order gmsh_ordering t row.

(** ** Node tags -> indices.
    [remap = -ones(max(tags) + 1); remap[tags] = arange(len(tags))], as in _gmsh22.py:142-144
    and _gmsh41.py:242-243 (tags reduced by one) and _gmsh40.py:182-184 (tags unchanged).
    numpy counts negative indices from the end; np.max of an empty array raises
    ValueError, a negative size or an index out of range an error as well. *)
Definition norm_index (n : nat) (i : Z) : option nat :=
  if (0 <=? i)%Z then (if (i <? Z.of_nat n)%Z then Some (Z.to_nat i) else None)
  else if (- Z.of_nat n <=? i)%Z then Some (Z.to_nat (Z.of_nat n + i)) else None.

Fixpoint assign_from (k : nat) (tags : list Z) (a : list Z) : result (list Z) :=
  match tags with
  | [] => Ok a
  | t :: ts => do i <- of_option IndexError (norm_index (length a) t);
               assign_from (S k) ts (upd i (Z.of_nat k) a)
  end.

Definition lookup_table (tags : list Z) : result (list Z) :=
  match tags with
  | [] => Err ValueError
  | t :: ts =>
      let m := fold_left Z.max ts t in
      if (m + 1 <? 0)%Z then Err ValueError
      else assign_from 0 tags (repeat (-1)%Z (Z.to_nat (m + 1)))
  end.

(** [remap[cell]] *)
Definition lookup_cell (table : list Z) (c : list Z) : result cell := gather table c.

(** ** Physical names *)

(** src/meshio/gmsh/common.py:216-232 [_write_physical_names]: entries (dim, num, name),
    sorted as Python tuples. *)
Definition entry : Type := Z * Z * string.
Definition entry_le (a b : entry) : bool :=
  let '(d1, n1, s1) := a in
  let '(d2, n2, s2) := b in
  if (d1 <? d2)%Z then true else if (d2 <? d1)%Z then false
  else if (n1 <? n2)%Z then true else if (n2 <? n1)%Z then false
  else match String.compare s1 s2 with Gt => false | _ => true end.
Fixpoint insert_entry (x : entry) (l : list entry) : list entry :=
  match l with
  | [] => [x]
  | y :: ys => if entry_le x y then x :: y :: ys else y :: insert_entry x ys
  end.
Definition sort_entries (l : list entry) : list entry := fold_right insert_entry [] l.

Definition dq : ascii := ascii_of_nat 34.
Definition backslash : ascii := ascii_of_nat 92.
Definition squote : ascii := ascii_of_nat 39.
Definition quoted (s : string) : string := String dq (s ++ String dq "")%string.

(** field_data maps a name to (num, dim).  Simplification: entries that are not pairs of
    integers (skipped with a warning) are not modelled. *)
Definition write_physical_names (fd : dict (Z * Z)) : list string :=
  match sort_entries (map (fun kv => (snd (snd kv), fst (snd kv), fst kv)) fd) with
  | [] => []
  | es => ["$PhysicalNames"; str_of_nat (length es)] ++
          map (fun e : entry => let '(d, n, s) := e in row_line [str_of_Z d; str_of_Z n; quoted s]) es ++
          ["$EndPhysicalNames"]
  end.

(** [shlex.split(line)] (posix mode): blanks separate, double quotes protect everything but
    a backslash before a quote or backslash, single quotes protect everything.  State: the
    token being read, if any.  ValueError for an unclosed quotation or a trailing
    backslash. *)
Inductive shmode : Set := Plain | InDouble | InSingle.
Fixpoint shlex (mode : shmode) (tok : option string) (s : string) : result (list string) :=
  let add c := match tok with Some t => Some (t ++ String c "")%string | None => Some (String c "") end in
  let keep := match tok with Some t => Some t | None => Some "" end in
  match s with
  | EmptyString =>
      match mode with
      | Plain => match tok with Some t => Ok [t] | None => Ok [] end
      | _ => Err ValueError
      end
  | String c s' =>
      match mode with
      | Plain =>
          if is_space c then
            match tok with
            | Some t => do r <- shlex Plain None s'; Ok (t :: r)
            | None => shlex Plain None s'
            end
          else if Ascii.eqb c dq then shlex InDouble keep s'
          else if Ascii.eqb c squote then shlex InSingle keep s'
          else if Ascii.eqb c backslash then
            match s' with
            | EmptyString => Err ValueError
            | String e s'' => shlex Plain (match tok with Some t => Some (t ++ String e "")%string
                                                    | None => Some (String e "") end) s''
            end
          else shlex Plain (add c) s'
      | InDouble =>
          if Ascii.eqb c dq then shlex Plain keep s'
          else if Ascii.eqb c backslash then
            match s' with
            | EmptyString => Err ValueError
            | String e s'' =>
                if Ascii.eqb e dq || Ascii.eqb e backslash
                then shlex InDouble (match tok with Some t => Some (t ++ String e "")%string
                                               | None => Some (String e "") end) s''
                else shlex InDouble (add c) s'
            end
          else shlex InDouble (add c) s'
      | InSingle =>
          if Ascii.eqb c squote then shlex Plain keep s' else shlex InSingle (add c) s'
      end
  end.

(** src/meshio/gmsh/common.py:41-50, one line: the name and (num, dim); [line[1::-1]] are
    the first two tokens, reversed. *)
Definition read_physical_name (l : string) : result (string * (Z * Z)) :=
  do ts <- shlex Plain None l;
  do key <- of_option IndexError (nth_error ts 2);
  match ts with
  | a :: b :: _ => do za <- of_option ValueError (parse_Z a);
                   do zb <- of_option ValueError (parse_Z b);
                   Ok (key, (zb, za))
  | _ => Err IndexError
  end.

Definition end_line (tag : string) : string := ("$End" ++ tag)%string.

(** src/meshio/gmsh/common.py:41-50 [_read_physical_names] *)
Definition read_physical_names (fd : dict (Z * Z)) (ls : list string)
  : result (dict (Z * Z) * list string) :=
  do n <- int_line (line1 ls);
  do r <- read_lines read_physical_name (Z.to_nat n) (tl ls);
  Ok (dupdate fd (fst r), skip_to (end_line "PhysicalNames") (snd r)).

(** ** NodeData and ElementData (ASCII).  A data array is a list of rows; arrays of shape
    (n,) and (n,1), which the format cannot tell apart, are both lists of rows of length 1. *)
Section Data.
Context {fl : floats}.

(** src/meshio/gmsh/common.py:235-286 [_write_data].  The data is printed with [{!r}], the
    time step as 0.0.  [nc] is the number of components (data.shape[1], or 1). *)
Definition write_data (tag name : string) (nc : nat) (rows : list (list fl)) : result (list string) :=
  if negb (Nat.eqb nc 1 || Nat.eqb nc 3 || Nat.eqb nc 9) then Err WriteError else
  Ok ([("$" ++ tag)%string; "1"; quoted name; "1"; "0.0"; "3"; "0"; str_of_nat nc; str_of_nat (length rows)] ++
      map (fun kr => row_line (str_of_nat (fst kr + 1) :: map ffmt (snd kr))) (enumerate rows) ++
      [end_line tag]).

(** [s.replace] of the double quote by the empty string *)
Fixpoint unquote (s : string) : string :=
  match s with
  | EmptyString => ""
  | String c s' => if Ascii.eqb c dq then unquote s' else String c (unquote s')
  end.

(** src/meshio/gmsh/common.py:53-90 [_read_data], ASCII.  np.fromfile parses the index column
    as a float too; it is dropped without being looked at. *)
Definition read_data (tag : string) (dd : dict (list (list fl))) (ls : list string)
  : result (dict (list (list fl)) * list string) :=
  do ns <- int_line (line1 ls);
  do st <- read_lines (fun l => Ok (unquote (strip l))) (Z.to_nat ns) (tl ls);
  do nr <- int_line (line1 (snd st));
  do rt <- read_lines (fun l => Ok l) (Z.to_nat nr) (tl (snd st));
  do ni <- int_line (line1 (snd rt));
  do it <- read_lines int_line (Z.to_nat ni) (tl (snd rt));
  do nc <- of_option IndexError (nth_error (fst it) 1);
  do num <- of_option IndexError (nth_error (fst it) 2);
  let w := S (Z.to_nat nc) in
  do tk <- of_option ValueError (take_tokens (Z.to_nat num * w) (snd it));
  do rows <- mapM (fun r => parse_floats (tl r)) (chunks w (fst tk));
  do name <- of_option IndexError (hd_error (fst st));
  Ok (dset name rows dd, skip_to (end_line tag) (snd tk)).
End Data.
