(** Model of src/meshio/abaqus/_abaqus.py.  A file is a list of lines. *)
From Verif.Lib Require Import Base Text Lines.
From Verif.Model Require Import Core.

(** _abaqus.py:17-101 *)
Definition abaqus_to_meshio_type : dict string := [
  ("T2D2", "line"); ("T2D2H", "line"); ("T2D3", "line3"); ("T2D3H", "line3"); ("T3D2", "line"); ("T3D2H", "line");
  ("T3D3", "line3"); ("T3D3H", "line3"); ("B21", "line"); ("B21H", "line"); ("B22", "line3"); ("B22H", "line3");
  ("B31", "line"); ("B31H", "line"); ("B32", "line3"); ("B32H", "line3"); ("B33", "line3"); ("B33H", "line3");
  ("CPS4", "quad"); ("CPS4R", "quad"); ("S4", "quad"); ("S4R", "quad"); ("S4RS", "quad"); ("S4RSW", "quad");
  ("S4R5", "quad"); ("S8R", "quad8"); ("S8R5", "quad8"); ("S9R5", "quad9"); ("CPS3", "triangle"); ("STRI3", "triangle");
  ("S3", "triangle"); ("S3R", "triangle"); ("S3RS", "triangle"); ("R3D3", "triangle"); ("STRI65", "triangle6");
  ("C3D8", "hexahedron"); ("C3D8H", "hexahedron"); ("C3D8I", "hexahedron"); ("C3D8IH", "hexahedron");
  ("C3D8R", "hexahedron"); ("C3D8RH", "hexahedron"); ("C3D20", "hexahedron20"); ("C3D20H", "hexahedron20");
  ("C3D20R", "hexahedron20"); ("C3D20RH", "hexahedron20"); ("C3D4", "tetra"); ("C3D4H", "tetra4"); ("C3D10", "tetra10");
  ("C3D10H", "tetra10"); ("C3D10I", "tetra10"); ("C3D10M", "tetra10"); ("C3D10MH", "tetra10"); ("C3D6", "wedge");
  ("C3D15", "wedge15"); ("CAX4P", "quad"); ("CPE6", "triangle6") ].
Definition meshio_to_abaqus_type : dict string :=
  fold_left (fun d kv => dset (snd kv) (fst kv) d) abaqus_to_meshio_type [].

(** [s.upper()], for ASCII letters *)
Definition upper_char (a : ascii) : ascii :=
  let n := nat_of_ascii a in if Nat.leb 97 n && Nat.leb n 122 then ascii_of_nat (n - 32) else a.
Fixpoint upper (s : string) : string :=
  match s with EmptyString => "" | String a s' => String (upper_char a) (upper s') end.
(** [s.replace(c, "")] *)
Fixpoint remove_char (c : ascii) (s : string) : string :=
  match s with EmptyString => "" | String a s' => if Ascii.eqb a c then remove_char c s' else String a (remove_char c s') end.
(** [s.strip(c)] *)
Fixpoint lstrip_char (c : ascii) (s : string) : string :=
  match s with EmptyString => "" | String a s' => if Ascii.eqb a c then lstrip_char c s' else s end.
Fixpoint rstrip_char (c : ascii) (s : string) : string :=
  match s with
  | EmptyString => ""
  | String a s' => match rstrip_char c s' with
                   | EmptyString => if Ascii.eqb a c then "" else String a ""
                   | r => String a r
                   end
  end.
Definition strip_char (c : ascii) (s : string) : string := rstrip_char c (lstrip_char c s).
(** [s.isnumeric()], for ASCII *)
Fixpoint digits (s : string) : bool :=
  match s with EmptyString => true | String a s' => (match digit_val a with Some _ => true | None => false end) && digits s' end.
Definition isnumeric (s : string) : bool := negb (String.eqb s "") && digits s.
(** [int(s)] *)
Definition py_int (s : string) : result Z := of_option ValueError (parse_Z (strip s)).

(** _abaqus.py:133 *)
Definition keyword (line : string) : string := upper (remove_char "*" (strip (hd "" (split_char "," line)))).

(** The lines up to the next one that starts with an asterisk, as the loops in [_read_nodes], [_read_cells] and
    [_read_set] take them. *)
Fixpoint span_data (ls : list string) : list string * list string :=
  match ls with
  | [] => ([], [])
  | l :: ls' => if startswith l "*" then ([], ls) else (l :: fst (span_data ls'), snd (span_data ls'))
  end.
Definition nonblank (ls : list string) : list string := filter (fun l => negb (String.eqb (strip l) "")) ls.

(** _abaqus.py:339-375 [get_param_map].  (A key without value has the value None.) *)
Definition param_word (w : string) : result (string * option string) :=
  if negb (char_in "=" w) then Ok (upper (strip w), None)
  else match split_char "=" w with
       | [k; v] => Ok (upper (strip k), Some (strip v))
       | _ => Err ReadError
       end.
Definition param_map (line : string) (required : list string) : result (dict (option string)) :=
  do ws <- mapM param_word (split_char "," line);
  let d := fold_left (fun d kv => dset (fst kv) (snd kv) d) ws [] in
  if forallb (fun k => dmem k d) required then Ok d else Err RuntimeError.
(** [params_map[key]]; None is the empty string here. *)
Definition param (k : string) (d : dict (option string)) : string :=
  match dget k d with Some (Some v) => v | _ => "" end.

(** A dictionary from ids to positions; the last of several equal ids counts. *)
Definition id_map (ids : list Z) : zdict nat := rev (combine ids (seq 0 (length ids))).

(** A member of the list of a cell set: an array, or (for a set of sets) again a list.  (In the code
    these lists are shared, not copied.) *)
Inductive csval : Type := Idx (l : list Z) | Lst (l : list csval).

(** What the reader returns.  (The Mesh constructor is Model/Core.v.) *)
Record abq_mesh (F : Type) : Type := AbqMesh {
  ab_points : list (list F); ab_cells : list block; ab_psets : dict (list Z); ab_csets : dict (list csval) }.
Arguments AbqMesh {F} _ _ _ _.
Arguments ab_points {F} _.
Arguments ab_cells {F} _.
Arguments ab_psets {F} _.
Arguments ab_csets {F} _.

(** The variables of [read_buffer]. *)
Record abq_state (F : Type) : Type := AbqState {
  as_points : list (list F); as_ids : option (zdict nat); as_cells : list block; as_cell_ids : list (zdict nat);
  as_psets : dict (list Z); as_csets : dict (list csval); as_esets : dict (list Z); as_eorder : list string }.
Arguments AbqState {F} _ _ _ _ _ _ _ _.
Arguments as_points {F} _.
Arguments as_ids {F} _.
Arguments as_cells {F} _.
Arguments as_cell_ids {F} _.
Arguments as_psets {F} _.
Arguments as_csets {F} _.
Arguments as_esets {F} _.
Arguments as_eorder {F} _.

(** np.arange(a, b, s).  (numpy's error for [s = 0] is a ZeroDivisionError.) *)
Definition arange (a b s : Z) : result (list Z) :=
  if Z.eqb s 0 then Err ValueError else
  Ok (map (fun k => a + Z.of_nat k * s)%Z (seq 0 (Z.to_nat (- ((a - b) / s))))).

(** _abaqus.py:378-399 [_read_set]: ids and names; the array of ids is of type int32 *)
Definition set_line (line : string) : result (list Z + string) :=
  let toks := split_char "," (strip_char "," (strip line)) in
  if isnumeric (hd "" toks) then do l <- mapM py_int toks; Ok (inl l) else Ok (inr (hd "" toks)).
Definition lefts {A B} (l : list (A + B)) : list A := flat_map (fun x => match x with inl a => [a] | inr _ => [] end) l.
Definition rights {A B} (l : list (A + B)) : list B := flat_map (fun x => match x with inl _ => [] | inr b => [b] end) l.
Definition int32 (z : Z) : bool := ((-2147483648 <=? z) && (z <=? 2147483647))%Z.
Definition read_set (data : list string) (generate : bool) : result (list Z * list string) :=
  do l <- mapM set_line (nonblank data);
  let ids := concat (lefts l) in
  if negb (forallb int32 ids) then Err OverflowError else
  do ids <- (if generate
             then match ids with [a; b; s] => arange a (b + 1)%Z s | _ => Err ReadError end
             else Ok ids);
  Ok (ids, rights l).

(** _abaqus.py:252-285 [_read_cells]: type, cells, ids *)
Definition cell_line (line : string) : result (list Z) :=
  mapM py_int (filter (fun t => negb (String.eqb t "")) (split_char "," (strip line))).
Definition read_cells (data : list string) (etype : string) (ids : zdict nat) : result (block * zdict nat) :=
  do ct <- of_option ReadError (dget etype abaqus_to_meshio_type);
  do n <- of_option KeyError (dget ct num_nodes_per_cell);
  do l <- mapM cell_line (nonblank data);
  let idx := concat l in
  if negb (Nat.eqb (length idx mod (n + 1)) 0) then Err ReadError else
  let rows := chunks (n + 1) idx in
  do cells <- mapM (fun r => mapM (fun i => do k <- of_option KeyError (zget i ids); Ok (Z.of_nat k)) (tl r)) rows;
  Ok (Block ct cells, id_map (map (hd 0%Z) rows)).

Section Abaqus.
Context {fl : floats}.

(** _abaqus.py:232-249 [_read_nodes].  (numpy raises for rows of different lengths.) *)
Definition node_line (line : string) : result (Z * list fl) :=
  match split_char "," (strip line) with
  | [] => Err IndexError
  | t :: toks => do i <- py_int t; do xs <- mapM (fun t => of_option ValueError (fparse (strip t))) toks; Ok (i, xs)
  end.
Definition read_nodes (data : list string) : result (list (list fl) * zdict nat) :=
  do l <- mapM node_line (nonblank data);
  if negb (forallb (fun x => Nat.eqb (length (snd x)) (length (snd (hd (0%Z, []) l)))) l) then Err ValueError else
  Ok (map snd l, id_map (map fst l)).

(** _abaqus.py:288-336 [merge].  (np.concatenate wants points of the same dimension.) *)
Definition merge (m : abq_mesh fl) (st : abq_state fl) : result (abq_state fl) :=
  do _ <- (match as_points st, ab_points m with
           | p :: _, q :: _ => if Nat.eqb (length p) (length q) then Ok tt else Err ValueError
           | _, _ => Ok tt
           end);
  let n := Z.of_nat (length (as_points st)) in
  Ok (AbqState (as_points st ++ ab_points m) (as_ids st)
    (as_cells st ++ map (fun b => Block (btype b) (map (map (fun i => i + n)%Z) (bdata b))) (ab_cells m))
    (as_cell_ids st)
    (fold_left (fun d kv => dset (fst kv) (map (fun i => i + n)%Z (snd kv)) d) (ab_psets m) (as_psets st))
    (as_csets st) (as_esets st) (as_eorder st)).

(** _abaqus.py:161-180: a cell set from ids or from the names of other sets *)
Fixpoint name_sets (names : list string) (name : string) (csets : dict (list csval)) (esets : dict (list Z)) : result (dict (list csval)) :=
  match names with
  | [] => Ok csets
  | n :: names' =>
      let old := match dget name csets with Some l => l | None => [] end in
      do v <- (match dget n csets with
               | Some l => Ok (Lst l)
               | None => match dget n esets with Some l => Ok (Idx l) | None => Err ReadError end
               end);
      name_sets names' name (dset name (old ++ [v]) csets) esets
  end.
Definition id_sets (ids : list Z) (cell_ids : list (zdict nat)) : list csval :=
  map (fun m => Idx (flat_map (fun i => match zget i m with Some k => [Z.of_nat k] | None => [] end) ids)) cell_ids.

(** [include] reads another file: _abaqus.py:181-190. *)
Variable include : string -> result (abq_mesh fl).

(** _abaqus.py:133-209: the section that begins with [line]; [data] are the data lines after it.  The
    result is the new state and whether the data lines are consumed. *)
Definition section (st : abq_state fl) (line : string) (data : list string) : result (abq_state fl * bool) :=
  let kw := keyword line in
  if String.eqb kw "NODE" then
    do n <- read_nodes data;
    Ok (AbqState (fst n) (Some (snd n)) (as_cells st) (as_cell_ids st) (as_psets st) (as_csets st) (as_esets st) (as_eorder st), true)
  else if String.eqb kw "ELEMENT" then
    do ids <- of_option ReadError (as_ids st);
    do pm <- param_map line ["TYPE"];
    do c <- read_cells data (param "TYPE" pm) ids;
    let '(es, eo) := match dget "ELSET" pm with
                     | None => (as_esets st, as_eorder st)
                     | Some _ => (dset (param "ELSET" pm) (map Z.of_nat (seq 0 (blen (fst c)))) (as_esets st), as_eorder st ++ [param "ELSET" pm])
                     end in
    Ok (AbqState (as_points st) (as_ids st) (as_cells st ++ [fst c]) (as_cell_ids st ++ [snd c]) (as_psets st) (as_csets st) es eo, true)
  else if String.eqb kw "NSET" then
    do pm <- param_map line ["NSET"];
    do s <- read_set data (dmem "GENERATE" pm);
    do l <- mapM (fun i => do ids <- of_option TypeError (as_ids st); do k <- of_option KeyError (zget i ids); Ok (Z.of_nat k)) (fst s);
    Ok (AbqState (as_points st) (as_ids st) (as_cells st) (as_cell_ids st) (dset (param "NSET" pm) l (as_psets st)) (as_csets st) (as_esets st) (as_eorder st), true)
  else if String.eqb kw "ELSET" then
    do pm <- param_map line ["ELSET"];
    do s <- read_set data (dmem "GENERATE" pm);
    let name := param "ELSET" pm in
    do cs <- (match fst s with
              | [] => name_sets (snd s) name (dset name [] (as_csets st)) (as_esets st)
              | ids => Ok (dset name (id_sets ids (as_cell_ids st)) (as_csets st))
              end);
    Ok (AbqState (as_points st) (as_ids st) (as_cells st) (as_cell_ids st) (as_psets st) cs (as_esets st) (as_eorder st), true)
  else if String.eqb kw "INCLUDE" then
    do m <- include (strip (last (split_char "=" line) ""));
    do st' <- (match ab_points m with [] => Ok st | _ => merge m st end);
    Ok (st', false)
  else Ok (st, false).

(** _abaqus.py:126-209: the loop *)
Fixpoint abq_loop (fuel : nat) (st : abq_state fl) (ls : list string) : result (abq_state fl) :=
  match ls with
  | [] => Ok st
  | line :: ls' =>
      match fuel with
      | O => Err OutOfFuel
      | S fuel' =>
          if startswith line "**" then abq_loop fuel' st ls' else
          do r <- section st line (fst (span_data ls'));
          abq_loop fuel' (fst r) (if snd r then snd (span_data ls') else ls')
      end
  end.

(** _abaqus.py:211-221: the sets named by ELEMENT.  [i] counts these sets, and is used as the number of a block. *)
Fixpoint element_sets (i : nat) (order : list string) (nblocks : nat) (esets : dict (list Z)) (csets : dict (list csval)) : result (dict (list csval)) :=
  match order with
  | [] => Ok csets
  | name :: order' =>
      do v <- of_option KeyError (dget name esets);
      do l <- (match dget name csets with
               | Some l => if Nat.ltb i (length l) then Ok (upd i (Idx v) l) else Err IndexError
               | None => Ok (map (fun ic => Idx (if Nat.eqb i ic then v else [])) (seq 0 nblocks))
               end);
      element_sets (S i) order' nblocks esets (dset name l csets)
  end.

(** _abaqus.py:111-231 [read_buffer] *)
Definition abq_init : abq_state fl := AbqState [] None [] [] [] [] [] [].
Definition read_abaqus (ls : list string) : result (abq_mesh fl) :=
  do st <- abq_loop (length ls) abq_init ls;
  do cs <- element_sets 0 (as_eorder st) (length (as_cells st)) (as_esets st) (as_csets st);
  Ok (AbqMesh (as_points st) (as_cells st) (as_psets st) cs).
End Abaqus.

(** _abaqus.py:183-186: the path of an included file: as it is in the line, if there is such a file, otherwise
    in the directory of the file that includes it.  [dir_part] is a path up to its last slash.  (Paths
    are strings; pathlib would also drop a doubled slash and a dot between slashes.) *)
Fixpoint dir_part (p : string) : string :=
  match p with
  | EmptyString => ""
  | String a p' => if Ascii.eqb a "/" || char_in "/" p' then String a (dir_part p') else ""
  end.
Definition include_path (fs : string -> option (list string)) (cur name : string) : string :=
  match fs name with
  | Some _ => name
  | None => if startswith name "/" then name else (dir_part cur ++ name)%string
  end.
(** _abaqus.py:104-108 [read], with a file system and a bound for the depth of inclusion *)
Fixpoint read_abaqus_file {fl : floats} (depth : nat) (fs : string -> option (list string)) (path : string) : result (abq_mesh fl) :=
  match depth with
  | O => Err OutOfFuel
  | S depth' =>
      do ls <- of_option OSError (fs path);
      read_abaqus (fun name => read_abaqus_file depth' fs (include_path fs path name)) ls
  end.

(** ** Writer *)
Record abq_in (F : Type) : Type := AbqIn {
  ai_points : list (list F); ai_cells : list block; ai_psets : dict (list Z); ai_csets : dict (list (list Z)) }.
Arguments AbqIn {F} _ _ _ _.
Arguments ai_points {F} _.
Arguments ai_cells {F} _.
Arguments ai_psets {F} _.
Arguments ai_csets {F} _.

(** _abaqus.py:436-439, 446-449: a list of ids, eight on a line *)
Fixpoint comma_lines (ls : list string) : list string :=
  match ls with
  | [] => [""]
  | [l] => [l]
  | l :: ls' => (l ++ ",")%string :: comma_lines ls'
  end.
Definition id_lines (ids : list Z) : list string := comma_lines (map (fun c => join "," (map str_of_Z c)) (chunks 8 ids)).

(** _abaqus.py:414-426 *)
Fixpoint elem_lines (eid : Z) (rows : list cell) : list string :=
  match rows with
  | [] => []
  | r :: rows' => (str_of_Z (eid + 1) ++ "," ++ join "," (map (fun i => str_of_Z (i + 1)) r))%string :: elem_lines (eid + 1) rows'
  end.
Fixpoint elem_sections (translate : bool) (eid : Z) (bs : list block) : result (list string) :=
  match bs with
  | [] => Ok []
  | b :: bs' =>
      do name <- (if translate then of_option KeyError (dget (btype b) meshio_to_abaqus_type) else Ok (btype b));
      do r <- elem_sections translate (eid + Z.of_nat (blen b)) bs';
      Ok (("*ELEMENT, TYPE=" ++ name)%string :: elem_lines eid (bdata b) ++ r)
  end.
(** _abaqus.py:428-442: the part of the sets in block [ic] *)
Definition elset_part (csets : dict (list (list Z))) (ic : nat) (offset : Z) : result (list string) :=
  do l <- mapM (fun kv => do v <- of_option IndexError (nth_error (snd kv) ic);
                          Ok (match v with [] => [] | _ => ("*ELSET, ELSET=" ++ fst kv)%string :: id_lines (map (fun i => i + 1 + offset)%Z v) end)) csets;
  Ok (concat l).
Fixpoint elset_sections (csets : dict (list (list Z))) (ic : nat) (offset : Z) (bs : list block) : result (list string) :=
  match bs with
  | [] => Ok []
  | b :: bs' => do a <- elset_part csets ic offset; do r <- elset_sections csets (S ic) (offset + Z.of_nat (blen b)) bs'; Ok (a ++ r)
  end.
(** _abaqus.py:444-452 *)
Definition nset_sections (psets : dict (list Z)) : list string :=
  flat_map (fun kv => ("*NSET, NSET=" ++ fst kv)%string :: id_lines (map (fun i => i + 1)%Z (snd kv))) psets.

(** _abaqus.py:402-455 [write] *)
Definition write_abaqus {fl : floats} (version : string) (translate : bool) (m : abq_in fl) : result (list string) :=
  do es <- elem_sections translate 0 (ai_cells m);
  do cs <- elset_sections (ai_csets m) 0 0 (ai_cells m);
  Ok (["*HEADING"; "Abaqus DataFile Version 6.14"; ("written by meshio v" ++ version)%string; "*NODE"] ++
      map (fun kp => join ", " (str_of_nat (fst kp + 1) :: map ffmt (snd kp))) (enumerate (ai_points m)) ++
      es ++ cs ++ nset_sections (ai_psets m)).
