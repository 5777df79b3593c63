(** C29, C30: Wavefront OBJ and OFF. *)
From Verif.Lib Require Import Base Text Lines LinesFacts.
From Verif.Model Require Import Core Obj Off.
From Verif.Spec Require Import Core Blocks Surface.
From Verif.Proofs Require Import Blocks Obj Off.

(** ** C29 *)

(** Writing and reading gives the same points, the same faces in the same order in blocks of
    neighbouring faces with the same number of corners (named by it), the same texture
    coordinates and normals, and group id -1 for every face. *)
Theorem C29_roundtrip {fl : floats} stamp (m : obj_mesh fl) :
  floats_ok fl ->
  Forall (fun b => In (btype b) ["triangle"; "quad"; "polygon"]) (ob_cells m) ->
  Forall (fun p => length p = 3) (ob_points m) ->
  match ob_vn m with Some r => length r = length (ob_points m) | None => True end ->
  match ob_vt m with Some r => length r = length (ob_points m) | None => True end ->
  let blocks := regroup (map (fun f => (face_type (length f), f)) (faces_of (ob_cells m))) in
  exists file ids, write_obj stamp m = Ok file /\
    read_obj file = Ok (ObjMesh (ob_points m) blocks (if_rows (ob_vt m)) (if_rows (ob_vn m)), ids) /\
    map (@length Z) ids = map blen blocks /\ Forall (Forall (eq (-1)%Z)) ids.
Proof. intros. now apply obj_roundtrip. Qed.
Print Assumptions C29_roundtrip.

(** Hence for each width the faces of that width, in order. *)
Theorem C29_faces {fl : floats} stamp (m : obj_mesh fl) :
  floats_ok fl ->
  Forall (fun b => In (btype b) ["triangle"; "quad"; "polygon"]) (ob_cells m) ->
  Forall (fun p => length p = 3) (ob_points m) ->
  match ob_vn m with Some r => length r = length (ob_points m) | None => True end ->
  match ob_vt m with Some r => length r = length (ob_points m) | None => True end ->
  exists file (m' : obj_mesh fl) ids, write_obj stamp m = Ok file /\ @read_obj fl file = Ok (m', ids) /\
    forall w, filter (fun f => Nat.eqb (length f) w) (faces_of (ob_cells m')) =
              filter (fun f => Nat.eqb (length f) w) (faces_of (ob_cells m)).
Proof.
  intros H1 H2 H3 H4 H5. destruct (obj_roundtrip H1 stamp m H2 H3 H4 H5) as (file & ids & W & R & _).
  exists file. eexists. exists ids. split; [exact W|]. split; [exact R|]. intros w. cbn [ob_cells]. f_equal.
  unfold faces_of. apply regroup_faces.
Qed.
Print Assumptions C29_faces.

(** Texture and normal references after a slash do not change the vertex numbers. *)
Theorem C29_slashes items zs :
  Forall2 (fun s z => exists t, s = (str_of_Z z ++ t)%string /\ (t = "" \/ exists u, t = String "/" u)) items zs ->
  mapM face_index items = Ok zs.
Proof.
  induction 1 as [|s z items zs (t & -> & Ht) _ IH]; [reflexivity|]. cbn [mapM].
  rewrite face_index_item by auto. cbn [bind]. now rewrite IH.
Qed.
Print Assumptions C29_slashes.

(** Other cells are refused. *)
Theorem C29_refused {fl : floats} stamp (m : obj_mesh fl) :
  Exists (fun b => ~ In (btype b) ["triangle"; "quad"; "polygon"]) (ob_cells m) ->
  write_obj stamp m = Err WriteError.
Proof.
  intros H. unfold write_obj. replace (forallb _ _) with false; [reflexivity|]. symmetry. apply not_true_is_false.
  rewrite forallb_forall. intros F. apply Exists_exists in H. destruct H as (b & Hb & Hn). apply Hn.
  now apply Facts.smem_In, F.
Qed.
Print Assumptions C29_refused.

Definition ex_obj : obj_mesh Z :=
  ObjMesh [[0; 0; 0]; [1; 0; 0]; [1; 1; 0]; [0; 1; 0]]%Z
    [Block "triangle" [[0; 1; 2]]; Block "triangle" [[0; 2; 3]]; Block "quad" [[0; 1; 2; 3]];
     Block "triangle" [[1; 2; 3]]]%Z
    (Some [[0; 0]; [1; 0]; [1; 1]; [0; 1]]%Z) None.
Example C29_instance :
  (do file <- @write_obj int_floats "v5" ex_obj; @read_obj int_floats file) =
  Ok (ObjMesh [[0; 0; 0]; [1; 0; 0]; [1; 1; 0]; [0; 1; 0]]%Z
    [Block "triangle" [[0; 1; 2]; [0; 2; 3]]; Block "quad" [[0; 1; 2; 3]]; Block "triangle" [[1; 2; 3]]]%Z
    (Some [[0; 0]; [1; 0]; [1; 1]; [0; 1]]%Z) None, [[-1; -1]; [-1]; [-1]]%Z) /\
  Forall (fun b => In (btype b) ["triangle"; "quad"; "polygon"]) (ob_cells ex_obj) /\
  Forall (fun p => length p = 3) (ob_points ex_obj).
Proof. split; [now vm_compute|]. split; repeat constructor; cbn; tauto. Qed.

(** ** C30 *)

(** Points of dimension 2 or 3; exactly the triangles, in order, in one block. *)
Theorem C30_roundtrip {fl : floats} k (pts : list (list fl)) bs :
  floats_ok fl -> k = 2 \/ k = 3 -> Forall (fun p => length p = k) pts ->
  Forall (fun c => length c = 3) (cells_of "triangle" bs) ->
  exists file, write_off pts bs = Ok file /\
    read_off file = Ok (map (in_space fzero) pts, [Block "triangle" (cells_of "triangle" bs)]).
Proof. intros. now apply (off_roundtrip H k). Qed.
Print Assumptions C30_roundtrip.

Example C30_instance :
  (do file <- @write_off int_floats [[0; 0]; [1; 0]; [0; 1]; [1; 1]]%Z
     [Block "triangle" [[0; 1; 2]]; Block "line" [[0; 3]]; Block "triangle" [[1; 3; 2]]]%Z; @read_off int_floats file) =
  Ok ([[0; 0; 0]; [1; 0; 0]; [0; 1; 0]; [1; 1; 0]]%Z, [Block "triangle" [[0; 1; 2]; [1; 3; 2]]]%Z).
Proof. now vm_compute. Qed.
(** Also without triangles, and without points. *)
Example C30_empty :
  (do file <- @write_off int_floats [[0; 0; 5]]%Z [Block "line" [[0; 0]]]%Z; @read_off int_floats file) =
    Ok ([[0; 0; 5]]%Z, [Block "triangle" []]) /\
  (do file <- @write_off int_floats [] []; @read_off int_floats file) = Ok ([], [Block "triangle" []]).
Proof. split; now vm_compute. Qed.
