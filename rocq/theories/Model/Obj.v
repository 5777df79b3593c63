(** Model of src/meshio/obj/_obj.py. *)
From Verif.Lib Require Import Base Text Lines.
From Verif.Model Require Import Core.

(** What [read_buffer] passes to [Mesh]; also the part of a mesh the writer looks at. *)
Record obj_mesh (F : Type) : Type := ObjMesh {
  ob_points : list (list F);
  ob_cells : list block;
  (** point_data["obj:vt"], point_data["obj:vn"], if present *)
  ob_vt : option (list (list F));
  ob_vn : option (list (list F)) }.
Arguments ObjMesh {F} _ _ _ _.
Arguments ob_points {F} _.
Arguments ob_cells {F} _.
Arguments ob_vt {F} _.
Arguments ob_vn {F} _.

Section Obj.
Context {fl : floats}.

(** ** Writer *)

(** _obj.py:113-114: three coordinates are written; IndexError if there are fewer. *)
Definition obj_point_line (p : list fl) : result string :=
  match p with
  | x :: y :: z :: _ => Ok (row_line ("v" :: map ffmt [x; y; z]))
  | _ => Err IndexError
  end.
(** _obj.py:116-130 *)
Definition obj_row_line (key : string) (r : list fl) : string := row_line (key :: map ffmt r).
Definition obj_rows (key : string) (d : option (list (list fl))) : list string :=
  match d with Some rows => map (obj_row_line key) rows | None => [] end.
(** _obj.py:132-135.  Simplification: the format has the width of the array, hence of every row. *)
Definition obj_face_line (c : cell) : string := row_line ("f" :: map (fun n => str_of_Z (n + 1)) c).

(** _obj.py:100-135 [write]; [stamp] is the version and date of the header comment. *)
Definition write_obj (stamp : string) (m : obj_mesh fl) : result (list string) :=
  if negb (forallb (fun b => smem (btype b) ["triangle"; "quad"; "polygon"]) (ob_cells m)) then Err WriteError else
  do ps <- mapM obj_point_line (ob_points m);
  Ok (("# Created by meshio " ++ stamp)%string :: ps ++ obj_rows "vn" (ob_vn m) ++ obj_rows "vt" (ob_vt m) ++
      flat_map (fun b => map obj_face_line (bdata b)) (ob_cells m)).

(** ** Reader *)

(** _obj.py:26-31: the variables of the loop.  All lists are kept in reverse order; the face
    groups and the group ids, two parallel lists in the code, are one list of pairs. *)
Record obj_state : Type := ObjState {
  os_points : list (list fl);
  os_vn : list (list fl);
  os_vt : list (list fl);
  os_groups : list (list (cell * Z));
  os_gid : Z }.
Definition obj_init : obj_state := ObjState [] [] [] [] (-1).

(** _obj.py:57 [int(item.split("/")[0])] *)
Definition face_index (item : string) : result Z :=
  of_option ValueError (parse_Z (hd "" (split_char "/" item))).

(** _obj.py:58-66 *)
Definition add_face (gid : Z) (dat : cell) (groups : list (list (cell * Z))) : list (list (cell * Z)) :=
  match groups with
  | [] => [[(dat, gid)]]
  | [] :: gs => [(dat, gid)] :: gs
  | ((d, i) :: g) :: gs =>
      if Nat.eqb (length d) (length dat) then ((dat, gid) :: (d, i) :: g) :: gs
      else [(dat, gid)] :: ((d, i) :: g) :: gs
  end.

(** _obj.py:32-75: one line *)
Definition obj_step (st : obj_state) (line : string) : result obj_state :=
  match split_ws line with
  | [] => Ok st
  | key :: items =>
      if startswith key "#" then Ok st
      else if String.eqb key "v" then
        do r <- parse_floats items;
        Ok (ObjState (r :: os_points st) (os_vn st) (os_vt st) (os_groups st) (os_gid st))
      else if String.eqb key "vn" then
        do r <- parse_floats items;
        Ok (ObjState (os_points st) (r :: os_vn st) (os_vt st) (os_groups st) (os_gid st))
      else if String.eqb key "vt" then
        do r <- parse_floats items;
        Ok (ObjState (os_points st) (os_vn st) (r :: os_vt st) (os_groups st) (os_gid st))
      else if String.eqb key "f" then
        do dat <- mapM face_index items;
        Ok (ObjState (os_points st) (os_vn st) (os_vt st) (add_face (os_gid st) dat (os_groups st)) (os_gid st))
      else if String.eqb key "g" then
        Ok (ObjState (os_points st) (os_vn st) (os_vt st) ([] :: os_groups st) (os_gid st + 1))
      else Ok st
  end.

Fixpoint foldM {A B} (f : A -> B -> result A) (a : A) (l : list B) : result A :=
  match l with [] => Ok a | x :: l' => do a' <- f a x; foldM f a' l' end.

(** _obj.py:97-103 *)
Definition obj_type (w : nat) : string :=
  if Nat.eqb w 3 then "triangle" else if Nat.eqb w 4 then "quad" else "polygon".
Definition obj_block (g : list (cell * Z)) : block :=
  Block (obj_type (length (hd [] (map fst g)))) (map (fun dg => map (fun n => n - 1)%Z (fst dg)) g).

(** _mesh.py:148-159: the constructor rejects point data of the wrong length. *)
Definition obj_data (n : nat) (rows : list (list fl)) : result (option (list (list fl))) :=
  match rows with
  | [] => Ok None
  | _ => if Nat.eqb (length rows) n then Ok (Some rows) else Err ValueError
  end.

(** _obj.py:25-106 [read_buffer]: the mesh and cell_data["obj:group_ids"].  Simplification:
    rows of different lengths make a ragged list instead of failing in [np.array]. *)
Definition read_obj (ls : list string) : result (obj_mesh fl * list (list Z)) :=
  do st <- foldM obj_step obj_init ls;
  let groups := filter (fun g => negb (Nat.eqb (length g) 0)) (rev (map (@rev _) (os_groups st))) in
  let pts := rev (os_points st) in
  do vt <- obj_data (length pts) (rev (os_vt st));
  do vn <- obj_data (length pts) (rev (os_vn st));
  Ok (ObjMesh pts (map obj_block groups) vt vn, map (map snd) groups).
End Obj.
