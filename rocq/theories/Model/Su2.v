(** Model of src/meshio/su2/_su2.py. *)
From Verif.Lib Require Import Base Text Lines.
From Verif.Model Require Import Core.

(** _su2.py:18-44: codes, numbers of nodes, names *)
Definition su2_types : list (Z * (nat * string)) :=
  [(3%Z, (2, "line")); (5%Z, (3, "triangle")); (9%Z, (4, "quad")); (10%Z, (4, "tetra"));
   (12%Z, (8, "hexahedron")); (13%Z, (6, "wedge")); (14%Z, (5, "pyramid"))].
Definition su2_numnodes (c : Z) : option nat := option_map fst (zget c su2_types).
Definition su2_name (c : Z) : option string := option_map snd (zget c su2_types).
Definition meshio_to_su2 : dict Z :=
  [("line", 3); ("triangle", 5); ("quad", 9); ("tetra", 10); ("hexahedron", 12); ("wedge", 13); ("pyramid", 14)]%Z.

(** ** [_translate_cells] (_su2.py:217-256) *)

(** _su2.py:230-234: the codes; [eo] is [entry_offset] *)
Fixpoint su2_scan (fuel : nat) (data : list Z) (eo : nat) : result (list Z) :=
  match data with
  | [] => Ok []
  | c :: _ =>
      match fuel with
      | O => Err OutOfFuel
      | S fuel' =>
          do n <- of_option KeyError (su2_numnodes c);
          do r <- su2_scan fuel' (skipn (n + eo) data) eo;
          Ok (c :: r)
      end
  end.
(** _su2.py:242-245: cumsum(w) - w *)
Fixpoint su2_offsets (acc : nat) (ws : list nat) : list nat :=
  match ws with [] => [] | w :: ws' => acc :: su2_offsets (acc + w) ws' end.
(** data[off + 1 : off + 1 + n] by index *)
Definition su2_row (data : list Z) (n off : nat) : result (list Z) :=
  if Nat.leb (off + 1 + n) (length data) then Ok (firstn n (skipn (off + 1) data)) else Err IndexError.
Definition su2_block (data : list Z) (tos : list (Z * nat)) (u : Z) : result block :=
  do t <- of_option KeyError (su2_name u);
  do n <- of_option KeyError (su2_numnodes u);
  do rows <- mapM (fun to => su2_row data n (snd to)) (filter (fun to => Z.eqb (fst to) u) tos);
  Ok (Block t rows).
Definition su2_translate (data : list Z) (extra : bool) : result (list block) :=
  let eo := if extra then 2 else 1 in
  do types <- su2_scan (length data) data eo;
  do ns <- mapM (fun c => of_option KeyError (su2_numnodes c)) types;
  let tos := combine types (su2_offsets 0 (map (fun n => n + eo) ns)) in
  mapM (su2_block data tos) (zunique types).

(** ** Reader *)
Record su2_state (F : Type) : Type := Su2State {
  s_dim : Z;
  s_points : option (list (list F));
  (** blocks with their tags *)
  s_blocks : list (block * list Z);
  s_tag : Z }.
Arguments Su2State {F} _ _ _ _.
Arguments s_dim {F} _.
Arguments s_points {F} _.
Arguments s_blocks {F} _.
Arguments s_tag {F} _.

(** _su2.py:124-154: the section NELEM or MARKER_ELEMS with the tag [tag].
    [islice(f, n)] yields at most [n] lines. *)
Definition su2_elems (rest : string) (tag : Z) (ls : list string) : result (list (block * list Z) * list string) :=
  do n <- int_line rest;
  if (n <? 0)%Z then Err ValueError else
  let n := Z.to_nat n in
  match firstn n ls with
  | [] => Err StopIteration
  | first :: _ =>
      let toks := split_ws first in
      do c <- (match toks with [] => Err IndexError | t :: _ => of_option ValueError (parse_Z t) end);
      do nn <- of_option KeyError (su2_numnodes c);
      do extra <- (if Nat.eqb (nn + 1) (length toks) then Ok false
                   else if Nat.eqb (nn + 2) (length toks) then Ok true else Err ReadError);
      do data <- parse_ints (flat_map split_ws (firstn n ls));
      do bs <- su2_translate data extra;
      Ok (map (fun b => (b, repeat tag (blen b))) bs, skipn n ls)
  end.

Section Su2.
Context {fl : floats}.

(** _su2.py:91-117: the section NPOIN.  (Less than one point: the code asks for a negative number of
    items; not modelled.) *)
Definition su2_points (dim : Z) (rest : string) (ls : list string) : result (list (list fl) * list string) :=
  do first <- parse_floats (split_ws (line1 ls));
  let ncols := length first in
  do n <- (match split_ws rest with [] => Err IndexError | t :: _ => of_option ValueError (parse_Z t) end);
  if (n <? 1)%Z then Err ValueError else
  let n := Z.to_nat n - 1 in
  do t <- of_option ValueError (take_tokens (n * ncols) (tl ls));
  do vals <- parse_floats (fst t);
  let rows := first :: (if Nat.eqb ncols 0 then repeat [] n else chunks ncols vals) in
  Ok (if (dim <? Z.of_nat ncols)%Z then map (firstn (Z.to_nat dim)) rows else rows, snd t).

(** _su2.py:63-170: one line and what follows it.  Lines without exactly one "=" are skipped. *)
Definition su2_step (st : su2_state fl) (line : string) (ls : list string) : result (su2_state fl * list string) :=
  let line := strip line in
  if String.eqb line "" || startswith line "%" then Ok (st, ls) else
  match split_char "=" line with
  | [name; rest] =>
      if String.eqb name "NDIME" then
        do d <- int_line rest;
        if (d =? 2)%Z || (d =? 3)%Z then Ok (Su2State d (s_points st) (s_blocks st) (s_tag st), ls) else Err ReadError
      else if String.eqb name "NPOIN" then
        do p <- su2_points (s_dim st) rest ls;
        Ok (Su2State (s_dim st) (Some (fst p)) (s_blocks st) (s_tag st), snd p)
      else if String.eqb name "NELEM" || String.eqb name "MARKER_ELEMS" then
        do e <- su2_elems rest (if String.eqb name "NELEM" then 0%Z else s_tag st) ls;
        Ok (Su2State (s_dim st) (s_points st) (s_blocks st ++ fst e) (s_tag st), snd e)
      else if String.eqb name "NMARK" then
        do _ <- int_line rest; Ok (st, ls)
      else if String.eqb name "MARKER_TAG" then
        let tag := match int_line rest with Ok z => z | Err _ => (s_tag st + 1)%Z end in
        Ok (Su2State (s_dim st) (s_points st) (s_blocks st) tag, ls)
      else Ok (st, ls)
  | _ => Ok (st, ls)
  end.
Fixpoint su2_loop (fuel : nat) (st : su2_state fl) (ls : list string) : result (su2_state fl) :=
  match ls with
  | [] => Ok st
  | line :: ls' =>
      match fuel with
      | O => Err OutOfFuel
      | S fuel' => do r <- su2_step st line ls'; su2_loop fuel' (fst r) (snd r)
      end
  end.

(** _su2.py:178-211: the first block of type [t] takes the cells and tags of all blocks of this
    type, the others are deleted *)
Fixpoint su2_merge (t : string) (l : list (block * list Z)) : list (block * list Z) :=
  match l with
  | [] => []
  | bt :: l' =>
      if String.eqb (btype (fst bt)) t then
        let same := filter (fun x => String.eqb (btype (fst x)) t) l in
        (Block t (concat (map (fun x => bdata (fst x)) same)), concat (map snd same)) ::
        filter (fun x => negb (String.eqb (btype (fst x)) t)) l'
      else bt :: su2_merge t l'
  end.

(** _su2.py:55-214 [read_buffer]: points, cells and the entry "su2:tag" of cell_data *)
Definition read_su2 (ls : list string) : result (list (list fl) * list block * list (list Z)) :=
  do st <- su2_loop (length ls) (Su2State 0%Z None [] 0%Z) ls;
  let types := if (s_dim st =? 2)%Z then ["line"] else ["triangle"; "quad"] in
  let merged := fold_left (fun l t => su2_merge t l) types (s_blocks st) in
  do pts <- of_option UnboundLocalError (s_points st);
  Ok (pts, map fst merged, map snd merged).

(** ** Writer *)

(** _su2.py:259-360 [write].  [dim] is the number of columns of the points.  Which integer cell data are
    picked as tags is not modelled: as soon as there is a boundary cell (and therefore a tag), the loop
    of line 332 unpacks a CellBlock into two variables, which is a TypeError. *)
Definition su2_line (code : Z) (c : cell) : string := row_line (map str_of_Z (code :: c)).
Definition write_su2 (dim : nat) (pts : list (list fl)) (cells : list block) : result (list string) :=
  let internal := if Nat.eqb dim 2 then ["triangle"; "quad"] else ["tetra"; "hexahedron"; "wedge"; "pyramid"] in
  let boundary := if Nat.eqb dim 2 then ["line"] else ["triangle"; "quad"] in
  let vol := filter (fun b => smem (btype b) internal) cells in
  do rows <- mapM (fun b => do c <- of_option KeyError (dget (btype b) meshio_to_su2);
                            Ok (map (su2_line c) (bdata b))) vol;
  if existsb (fun b => smem (btype b) boundary && negb (Nat.eqb (blen b) 0)) cells then Err TypeError else
  Ok ([("NDIME= " ++ str_of_nat dim)%string; ("NPOIN= " ++ str_of_nat (length pts))%string] ++
      map (fun p => row_line (map ffmt p)) pts ++
      [("NELEM= " ++ str_of_nat (sum_nat (map blen vol)))%string] ++ concat rows ++
      ["NMARK= 0"]).
End Su2.
