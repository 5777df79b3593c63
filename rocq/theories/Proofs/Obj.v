(** OBJ round trip. *)
From Verif.Lib Require Import Base Facts Facts2 Text TextFacts Lines LinesFacts Group.
From Verif.Model Require Import Core Obj.
From Verif.Spec Require Import Core Blocks Surface.
From Verif.Proofs Require Import Core Blocks.

Lemma foldM_app {A B} (f : A -> B -> result A) a l1 l2 :
  foldM f a (l1 ++ l2) = do a' <- foldM f a l1; foldM f a' l2.
Proof. revert a; induction l1 as [|x l1 IH]; intros a; cbn; [reflexivity|]. destruct (f a x); cbn; auto. Qed.

(** Groups of equal width are the blocks of the specification. *)
Lemma width_blocks (name : nat -> string) (faces : list cell) :
  map (fun g => Block (name (fst g)) (snd g)) (group_adj Nat.eqb (map (fun f => (length f, f)) faces)) =
  regroup (map (fun f => (name (length f), f)) faces).
Proof.
  induction faces as [|f faces IH]; [reflexivity|]. cbn [map group_adj regroup]. rewrite <- IH.
  pose proof (group_adj_nonempty Nat.eqb (map (fun f => (length f, f)) faces)) as Hn.
  pose proof (group_adj_items Nat.eqb Nat.eqb_spec (map (fun f => (length f, f)) faces)) as Hi.
  destruct (group_adj Nat.eqb (map (fun f => (length f, f)) faces)) as [|[w vs] r]; [reflexivity|].
  inversion Hn as [|? ? Hv _]; subst. cbn in Hv. destruct vs as [|v vs]; [congruence|].
  cbn in Hi. destruct faces as [|g faces]; [discriminate|]. cbn in Hi. injection Hi as -> <- _.
  cbn [map fst snd]. destruct (Nat.eqb_spec (length f) (length v)) as [E|E].
  - rewrite E, String.eqb_refl. reflexivity.
  - rewrite andb_false_r. reflexivity.
Qed.

Section ObjProofs.
Context {fl : floats}.
Hypothesis fl_ok : floats_ok fl.
Notation step := (@obj_step fl).

Lemma step_key key items : forallb word (key :: items) = true ->
  split_ws (row_line (key :: items)) = key :: items.
Proof. intros H. unfold row_line. now apply split_ws_join. Qed.

Lemma step_v st (r : list fl) : step st (obj_row_line "v" r) =
  Ok (ObjState (r :: os_points st) (os_vn st) (os_vt st) (os_groups st) (os_gid st)).
Proof.
  unfold obj_step, obj_row_line. rewrite step_key by (auto; cbn [forallb]; rewrite words_floats; auto).
  cbn [startswith String.prefix]. change (startswith "v" "#") with false. cbn iota.
  change (String.eqb "v" "v") with true. cbn iota. now rewrite parse_floats_ok.
Qed.
Lemma step_vn st (r : list fl) : step st (obj_row_line "vn" r) =
  Ok (ObjState (os_points st) (r :: os_vn st) (os_vt st) (os_groups st) (os_gid st)).
Proof.
  unfold obj_step, obj_row_line. rewrite step_key by (auto; cbn [forallb]; rewrite words_floats; auto).
  change (startswith "vn" "#") with false. cbn iota. change (String.eqb "vn" "v") with false.
  change (String.eqb "vn" "vn") with true. cbn iota. now rewrite parse_floats_ok.
Qed.
Lemma step_vt st (r : list fl) : step st (obj_row_line "vt" r) =
  Ok (ObjState (os_points st) (os_vn st) (r :: os_vt st) (os_groups st) (os_gid st)).
Proof.
  unfold obj_step, obj_row_line. rewrite step_key by (auto; cbn [forallb]; rewrite words_floats; auto).
  change (startswith "vt" "#") with false. cbn iota. change (String.eqb "vt" "v") with false.
  change (String.eqb "vt" "vn") with false. change (String.eqb "vt" "vt") with true. cbn iota. now rewrite parse_floats_ok.
Qed.

Lemma digits_no_slash s : all_digits s = true -> char_in "/" s = false.
Proof.
  induction s as [|c s IH]; [reflexivity|]. cbn [all_digits char_in]. intros H. apply andb_true_iff in H.
  destruct H as [Hc Hs]. rewrite IH by auto. destruct (Ascii.eqb_spec "/" c) as [<-|]; [discriminate|reflexivity].
Qed.
Lemma str_of_Z_no_slash z : char_in "/" (str_of_Z z) = false.
Proof.
  destruct z as [|p|p]; [reflexivity| |]; cbn [str_of_Z]; [apply digits_no_slash, str_of_N_all_digits|].
  cbn [char_in]. rewrite digits_no_slash by apply str_of_N_all_digits. reflexivity.
Qed.

(** An item of a face line: the vertex number, possibly followed by a slash and more. *)
Lemma face_index_item z tail : tail = "" \/ (exists t, tail = String "/" t) ->
  face_index (str_of_Z z ++ tail)%string = Ok z.
Proof.
  unfold face_index. intros [->|[t ->]].
  - rewrite str_app_nil_r, split_char_single by apply str_of_Z_no_slash. cbn [hd]. now rewrite parse_Z_str_of_Z.
  - rewrite split_char_app by apply str_of_Z_no_slash. cbn [hd]. now rewrite parse_Z_str_of_Z.
Qed.

Lemma step_f st items dat : forallb word items = true -> mapM face_index items = Ok dat ->
  step st (row_line ("f" :: items)) =
  Ok (ObjState (os_points st) (os_vn st) (os_vt st) (add_face (os_gid st) dat (os_groups st)) (os_gid st)).
Proof.
  intros Hw Hd. unfold obj_step. rewrite step_key by (auto; cbn [forallb]; now rewrite Hw).
  change (startswith "f" "#") with false. cbn iota. change (String.eqb "f" "v") with false.
  change (String.eqb "f" "vn") with false. change (String.eqb "f" "vt") with false. change (String.eqb "f" "f") with true.
  cbn iota. rewrite Hd. reflexivity.
Qed.

Lemma face_items c : mapM face_index (map (fun n => str_of_Z (n + 1)) c) = Ok (map (fun n => n + 1)%Z c).
Proof.
  induction c as [|n c IH]; [reflexivity|]. cbn [map mapM]. rewrite <- (str_app_nil_r (str_of_Z (n + 1))) at 1.
  rewrite face_index_item by auto. cbn [bind]. now rewrite IH.
Qed.

(** The groups are those of the widths. *)
Definition pack (gid : Z) (acc : list (nat * list cell)) : list (list (cell * Z)) :=
  map (fun g => map (fun f => (f, gid)) (snd g)) acc.
Definition keyed (acc : list (nat * list cell)) : Prop :=
  Forall (fun g => snd g <> [] /\ Forall (fun f => length f = fst g) (snd g)) acc.

Lemma add_face_pack gid dat acc : keyed acc ->
  add_face gid dat (pack gid acc) = pack gid (add_run Nat.eqb acc (length dat, dat)) /\
  keyed (add_run Nat.eqb acc (length dat, dat)).
Proof.
  intros H. destruct acc as [|[w fs] acc].
  - cbn. split; [reflexivity|]. repeat constructor. discriminate.
  - inversion H as [|? ? [Hne Hw] Hk]; subst. cbn [fst snd] in *. destruct fs as [|f fs]; [congruence|].
    assert (Hf : length f = w) by now inversion Hw. cbn [pack map add_face add_run fst snd].
    rewrite Hf, (Nat.eqb_sym w). destruct (Nat.eqb_spec (length dat) w) as [E|E].
    + split; [reflexivity|]. constructor; auto. split; [discriminate|]. cbn. now constructor.
    + split; [reflexivity|]. constructor; [|now constructor]. cbn. split; [discriminate|]. repeat constructor.
Qed.

Definition one_up (c : cell) : cell := map (fun n => n + 1)%Z c.
Lemma fold_faces faces st acc : os_groups st = pack (os_gid st) acc -> keyed acc ->
  exists acc', foldM step st (map obj_face_line faces) =
    Ok (ObjState (os_points st) (os_vn st) (os_vt st) (pack (os_gid st) acc') (os_gid st)) /\
    acc' = fold_left (add_run Nat.eqb) (map (fun f => (length f, f)) (map one_up faces)) acc /\ keyed acc'.
Proof.
  revert st acc; induction faces as [|c faces IH]; intros st acc Hg Hk.
  - exists acc. cbn. rewrite <- Hg. destruct st. auto.
  - cbn [map foldM fold_left]. unfold obj_face_line at 1. rewrite (step_f st _ (one_up c)).
    + cbn [bind]. rewrite Hg. destruct (add_face_pack (os_gid st) (one_up c) acc Hk) as [E Hk'].
      rewrite E. destruct (IH (ObjState (os_points st) (os_vn st) (os_vt st)
        (pack (os_gid st) (add_run Nat.eqb acc (length (one_up c), one_up c))) (os_gid st)) _ eq_refl Hk')
        as (acc' & -> & -> & Hk2).
      cbn. eauto.
    + rewrite <- (map_map (fun n => n + 1)%Z str_of_Z). apply words_ints.
    + apply face_items.
Qed.

Lemma fold_v rows st : foldM step st (map (obj_row_line "v") rows) =
  Ok (ObjState (rev rows ++ os_points st) (os_vn st) (os_vt st) (os_groups st) (os_gid st)).
Proof.
  revert st; induction rows as [|r rows IH]; intros st; [destruct st; reflexivity|].
  cbn [map foldM]. rewrite step_v. cbn [bind]. rewrite IH. cbn. now rewrite <- app_assoc.
Qed.
Lemma fold_vn rows st : foldM step st (map (obj_row_line "vn") rows) =
  Ok (ObjState (os_points st) (rev rows ++ os_vn st) (os_vt st) (os_groups st) (os_gid st)).
Proof.
  revert st; induction rows as [|r rows IH]; intros st; [destruct st; reflexivity|].
  cbn [map foldM]. rewrite step_vn. cbn [bind]. rewrite IH. cbn. now rewrite <- app_assoc.
Qed.
Lemma fold_vt rows st : foldM step st (map (obj_row_line "vt") rows) =
  Ok (ObjState (os_points st) (os_vn st) (rev rows ++ os_vt st) (os_groups st) (os_gid st)).
Proof.
  revert st; induction rows as [|r rows IH]; intros st; [destruct st; reflexivity|].
  cbn [map foldM]. rewrite step_vt. cbn [bind]. rewrite IH. cbn. now rewrite <- app_assoc.
Qed.

Definition rows_or_nil (d : option (list (list fl))) : list (list fl) := match d with Some r => r | None => [] end.

Lemma keyed_order acc : keyed acc -> keyed (in_order acc).
Proof.
  unfold keyed, in_order. intros H. apply Forall_rev, Forall_map. eapply Forall_impl; [|exact H].
  intros [w fs] [H1 H2]. cbn in *. split; [|now apply Forall_rev]. intros E. apply H1. now rewrite <- (rev_involutive fs), E.
Qed.

Lemma pack_order gid acc : rev (map (@rev _) (pack gid acc)) = pack gid (in_order acc).
Proof. unfold pack, in_order. rewrite map_map, map_rev, map_map. f_equal. apply map_ext. intros g. cbn. now rewrite map_rev. Qed.

Lemma filter_pack gid acc : keyed acc -> filter (fun g => negb (Nat.eqb (length g) 0)) (pack gid acc) = pack gid acc.
Proof.
  induction 1 as [|[w fs] acc [Hne _] Hk IH]; [reflexivity|]. cbn [pack map filter fst snd].
  rewrite map_length. destruct fs; [cbn in Hne; congruence|]. cbn [length Nat.eqb negb].
  change (map (fun g => map (fun f => (f, gid)) (snd g)) acc) with (pack gid acc). now rewrite IH.
Qed.

Lemma blocks_pack gid acc : keyed acc ->
  map obj_block (pack gid acc) =
  map (fun g => Block (obj_type (fst g)) (map (map (fun n => n - 1)%Z) (snd g))) acc.
Proof.
  intros H. unfold pack. rewrite map_map. apply map_ext_in. intros [w fs] Hin. unfold keyed in H. rewrite Forall_forall in H.
  destruct (H _ Hin) as [Hne Hw]. cbn [fst snd] in *. unfold obj_block. rewrite !map_map. cbn [fst]. rewrite map_id.
  destruct fs as [|f fs]; [congruence|]. cbn [hd]. inversion Hw; subst. reflexivity.
Qed.

Lemma one_up_down c : map (fun n => n - 1)%Z (one_up c) = c.
Proof. unfold one_up. rewrite map_map. rewrite <- (map_id c) at 2. apply map_ext. intros. lia. Qed.

Lemma group_adj_map {V W} (f : V -> W) (l : list (nat * V)) :
  group_adj Nat.eqb (map (fun kv => (fst kv, f (snd kv))) l) =
  map (fun g => (fst g, map f (snd g))) (group_adj Nat.eqb l).
Proof.
  induction l as [|[k v] l IH]; [reflexivity|]. cbn [map fst snd group_adj]. rewrite IH.
  destruct (group_adj Nat.eqb l) as [|[k' vs] r]; [reflexivity|]. cbn [map fst snd]. destruct (Nat.eqb k k'); reflexivity.
Qed.

Lemma obj_data_ok n (d : option (list (list fl))) :
  match d with Some r => length r = n | None => True end ->
  obj_data n (rows_or_nil d) = Ok (if_rows d).
Proof.
  destruct d as [[|r rs]|]; cbn [rows_or_nil obj_data]; intros H; try reflexivity. now rewrite H, Nat.eqb_refl.
Qed.

Lemma obj_read_lines stamp (pts : list (list fl)) vn vt faces :
  match vn with Some r => length r = length pts | None => True end ->
  match vt with Some r => length r = length pts | None => True end ->
  exists ids,
  read_obj (("# Created by meshio " ++ stamp)%string :: map (obj_row_line "v") pts ++
     obj_rows "vn" vn ++ obj_rows "vt" vt ++ map obj_face_line faces) =
  Ok (ObjMesh pts (regroup (map (fun f => (obj_type (length f), f)) faces))
        (if_rows vt) (if_rows vn), ids) /\
  map (@length Z) ids = map blen (regroup (map (fun f => (obj_type (length f), f)) faces)) /\
  Forall (Forall (eq (-1)%Z)) ids.
Proof.
  intros Hvn Hvt. unfold read_obj. cbn [foldM].
  assert (E0 : step obj_init ("# Created by meshio " ++ stamp)%string = Ok obj_init).
  { unfold obj_step. cbn [append]. rewrite <- (str_char_app "#").
    rewrite (split_ws_word_space "#" " ") by reflexivity. reflexivity. }
  rewrite E0. cbn [bind]. clear E0. rewrite !foldM_app, fold_v. cbn [bind].
  assert (Evn : obj_rows "vn" vn = map (obj_row_line "vn") (rows_or_nil vn)) by (destruct vn; reflexivity).
  assert (Evt : obj_rows "vt" vt = map (obj_row_line "vt") (rows_or_nil vt)) by (destruct vt; reflexivity).
  rewrite Evn, foldM_app, fold_vn. cbn [bind]. rewrite Evt, foldM_app, fold_vt. cbn [bind].
  cbn [os_points os_vn os_vt os_groups os_gid obj_init].
  destruct (fold_faces faces (ObjState (rev pts ++ []) (rev (rows_or_nil vn) ++ []) (rev (rows_or_nil vt) ++ []) [] (-1)) [])
    as (acc & -> & Ha & Hk); [reflexivity|constructor|].
  cbn [bind os_points os_vn os_vt os_groups os_gid]. rewrite !app_nil_r, !rev_involutive.
  rewrite !obj_data_ok by auto. cbn [bind].
  rewrite pack_order, filter_pack, blocks_pack by now apply keyed_order.
  assert (Eo : in_order acc = map (fun g => (fst g, map one_up (snd g))) (group_adj Nat.eqb (map (fun f => (length f, f)) faces))).
  { rewrite Ha. change (in_order (fold_left _ ?l [])) with (run_groups Nat.eqb l).
    rewrite run_groups_adj by apply Nat.eqb_spec. rewrite <- group_adj_map. f_equal. rewrite !map_map. apply map_ext.
    intros f. cbn. unfold one_up. now rewrite map_length. }
  rewrite Eo, map_map. cbn [fst snd].
  assert (Eb : map (fun g : nat * list (list Z) => Block (obj_type (fst g)) (map (map (fun n => n - 1)%Z) (map one_up (snd g))))
     (group_adj Nat.eqb (map (fun f => (length f, f)) faces)) = regroup (map (fun f => (obj_type (length f), f)) faces)).
  { rewrite <- width_blocks. apply map_ext. intros g. f_equal. rewrite map_map. rewrite <- (map_id (snd g)) at 2.
    apply map_ext, one_up_down. }
  eexists. split; [rewrite Eb; reflexivity|]. split.
  - rewrite <- width_blocks. unfold pack. rewrite !map_map. apply map_ext. intros g. cbn. unfold blen. cbn.
    now rewrite !map_length.
  - apply Forall_map, Forall_map, Forall_map. apply Forall_forall. intros g _. cbn. apply Forall_map, Forall_map, Forall_forall. reflexivity.
Qed.

Lemma obj_roundtrip stamp (m : obj_mesh fl) :
  Forall (fun b => In (btype b) ["triangle"; "quad"; "polygon"]) (ob_cells m) ->
  Forall (fun p => length p = 3) (ob_points m) ->
  match ob_vn m with Some r => length r = length (ob_points m) | None => True end ->
  match ob_vt m with Some r => length r = length (ob_points m) | None => True end ->
  exists file ids, write_obj stamp m = Ok file /\
    read_obj file =
      Ok (ObjMesh (ob_points m) (regroup (map (fun f => (obj_type (length f), f)) (flat_map bdata (ob_cells m))))
            (if_rows (ob_vt m)) (if_rows (ob_vn m)), ids) /\
    map (@length Z) ids = map blen (regroup (map (fun f => (obj_type (length f), f)) (flat_map bdata (ob_cells m)))) /\
    Forall (Forall (eq (-1)%Z)) ids.
Proof.
  intros Ht Hp Hvn Hvt. unfold write_obj.
  replace (forallb _ _) with true.
  2:{ symmetry. apply forallb_forall. intros b Hb. rewrite Forall_forall in Ht. now apply smem_In, Ht. }
  cbn [negb]. rewrite (mapM_map _ (obj_row_line "v")).
  2:{ intros p Hi. rewrite Forall_forall in Hp. specialize (Hp p Hi). destruct p as [|x [|y [|z [|]]]]; try discriminate. reflexivity. }
  cbn [bind]. destruct (obj_read_lines stamp (ob_points m) (ob_vn m) (ob_vt m) (flat_map bdata (ob_cells m)) Hvn Hvt)
    as (ids & R & L & I). eexists. exists ids. split; [reflexivity|].
  replace (flat_map (fun b => map obj_face_line (bdata b)) (ob_cells m)) with (map obj_face_line (flat_map bdata (ob_cells m))).
  - auto.
  - clear. induction (ob_cells m) as [|b bs IH]; [reflexivity|]. cbn. now rewrite map_app, IH.
Qed.
End ObjProofs.
