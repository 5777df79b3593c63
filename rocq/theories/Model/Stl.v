(** Model of src/meshio/stl/_stl.py. *)
From Verif.Lib Require Import Base Text Lines Runs Bytes File Unique.
From Verif.Model Require Import Core.
From Coq Require Import NArith.

(** What the reader passes to [Mesh]. *)
Record stl_mesh (F : Type) : Type := StlMesh {
  t_points : list (list F);
  t_cells : list block;
  t_normals : option (list (list F)) }.
Arguments StlMesh {F} _ _ _.
Arguments t_points {F} _.
Arguments t_cells {F} _.
Arguments t_normals {F} _.

Section Stl.
Context {fl : floats}.
(** "<f4" *)
Variable f4 : codec fl.
(** The order of coordinate rows used by [np.unique(..., axis=0)]. *)
Variable ple : list fl -> list fl -> bool.

Notation point := (list fl).
(** A normal and the three corners. *)
Notation facet := (list point).

(** _stl.py:145-161 [data_from_facets] *)
Definition data_from_facets (facets : list facet) : list point * list block :=
  match facets with
  | [] => ([], [])
  | _ =>
      let pts := concat facets in
      (dedup_points ple pts,
       [Block "triangle" (chunks 3 (map Z.of_nat (dedup_index ple pts)))])
  end.

(** ** Writer *)

(** _stl.py:192-199 *)
Definition pad_point (p : point) : point :=
  match p with [x; y] => [x; y; fzero] | _ => p end.

(** _stl.py:184-209 [write] up to the choice of the variant: the facets and their normals.
    [normal_of] stands for the normalised cross product of lines 204-206.  [nrm] is
    [mesh.cell_data["facet_normals"]]. *)
Definition stl_facets (normal_of : facet -> point) (pts : list point) (cells : list block)
    (nrm : option (list (list point))) : result (list (point * facet)) :=
  do tri <- get_cells_type cells "triangle";
  do fs <- mapM (gather (map pad_point pts)) tri;
  do ns <- match nrm with
           | Some d => get_cell_data cells [("facet_normals", d)] "facet_normals" "triangle"
           | None => Ok (map normal_of fs)
           end;
  Ok (combine ns fs).

(** _stl.py:212-231 [_write_ascii]; [zip] *)
Definition vertex_line (p : point) : string := ("  " ++ row_line ("vertex" :: map ffmt p))%string.
Definition facet_lines (nf : point * facet) : list string :=
  [row_line ("facet" :: "normal" :: map ffmt (fst nf)); " outer loop"] ++
  map vertex_line (snd nf) ++ [" endloop"; "endfacet"].
Definition write_ascii (nfs : list (point * facet)) : list string :=
  "solid" :: flat_map facet_lines nfs ++ ["endsolid"].

(** _stl.py:234-257 [_write_binary] *)
Fixpoint repeat_char (c : ascii) (n : nat) : string :=
  match n with O => "" | S n' => String c (repeat_char c n') end.
Definition stl_header (version : string) : string :=
  let msg := ("This file was generated by meshio v" ++ version ++ ".")%string in
  (msg ++ repeat_char "X" (79 - String.length msg) ++ nl)%string.
Definition facet_bytes (nf : point * facet) : bytes :=
  flat_map (enc f4) (fst nf) ++ flat_map (enc f4) (concat (snd nf)) ++ [0; 0]%N.
Definition write_binary (version : string) (nfs : list (point * facet)) : bytes :=
  string_bytes (stl_header version) ++
  uint_bytes false 4 (N.of_nat (length nfs) mod capacity 4) ++
  flat_map facet_bytes nfs.

(** ** Reader *)

(** _stl.py:49-81 [iter_loadtxt] with the arguments of line 127: the last three words of
    every line that does not start with one of the comment words. *)
Definition stl_comments : list string := ["solid"; "outer loop"; "endloop"; "endfacet"; "endsolid"].
Definition last3 {A} (l : list A) : list A := skipn (length l - 3) l.
Definition data_items (ls : list string) : list (list string) :=
  map (fun l => last3 (split_ws l))
      (filter (fun l => negb (existsb (startswith l) stl_comments)) (map strip ls)).
Definition iter_loadtxt (ls : list string) : result (list (list fl)) :=
  let items := data_items ls in
  do vals <- mapM parse_floats items;
  match rev items with
  | [] => Ok []
  | i :: _ =>
      let w := length i in
      if Nat.eqb w 0 then Err ValueError
      else if Nat.eqb (length (concat vals) mod w) 0 then Ok (chunks w (concat vals))
      else Err ValueError
  end.

(** _stl.py:84-142 [_read_ascii].  The rows come in groups of four: normal, three corners. *)
Definition read_stl_ascii (ls : list string) : result (stl_mesh fl) :=
  do data <- iter_loadtxt ls;
  if negb (Nat.eqb (length data mod 4) 0) then Err ReadError else
  match chunks 4 data with
  | [] => Ok (StlMesh [] [] None)
  | groups =>
      let '(pts, cs) := data_from_facets (map (@tl _) groups) in
      Ok (StlMesh pts cs (Some (map (hd []) groups)))
  end.

(** _stl.py:164-181 [_read_binary]: records of 50 bytes; fewer if the file is too short. *)
Definition record_facet (r : bytes) : facet :=
  chunks 3 (map (dec f4) (chunks 4 (slice 12 48 r))).
Definition read_stl_binary (n : nat) (b : bytes) : stl_mesh fl :=
  let recs := firstn (Nat.min n (length b / 50)) (chunks 50 b) in
  let '(pts, cs) := data_from_facets (map record_facet recs) in
  StlMesh pts cs None.

(** _stl.py:20-46 [read].  np.fromfile with fewer than four bytes left gives an empty array.
    The comparison is modelled without overflow (numpy 1.x converts to 64 bits). *)
Definition read_stl (b : bytes) : result (stl_mesh fl) :=
  let size := N.of_nat (length b) in
  if (size <? 80)%N then read_stl_ascii (lines_of (bytes_string b))
  else if (size <? 84)%N then Err IndexError
  else
    let n := uint_value false (slice 80 84 b) in
    if (84 + n * 50 =? size)%N then Ok (read_stl_binary (N.to_nat n) (skipn 84 b))
    else read_stl_ascii (tl (lines_of (bytes_string b))).
End Stl.
