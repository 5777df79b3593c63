(** XDMF meshes and time series: C38 and C39. *)
From Verif.Lib Require Import Base Text Lines Bytes File.
From Verif.Model Require Import Core Xdmf.
From Verif.Spec Require Import Core Blocks Xdmf.
From Verif.Proofs Require Import XdmfFile.

(** ** C38: mixed topologies *)

(** The reader decodes every stream of the format: the cells in their order, cut where the type changes. *)
Theorem C38_decode L : L <> [] -> Forall mixed_cell L -> translate_mixed_cells (flat_map mixed_entry L) = Ok (regroup L).
Proof. apply mixed_stream. Qed.
Print Assumptions C38_decode.

(** The writer writes that stream, with the right dimension. *)
Theorem C38_encode_partial {F} ctype bs : 1 < length bs -> xdmf_cells_ok false bs -> ctype <> "uint64" ->
  topology (F := F) false ctype bs =
  Ok (Some ("Mixed", [length (flat_map mixed_entry (all_cells bs))], int_vector "int64" (flat_map mixed_entry (all_cells bs)))).
Proof. apply mixed_written. Qed.
Print Assumptions C38_encode_partial.

(** Whole files, in each of the three formats: points, cells, point data and cell data.  [base] and
    [h5name] are the names of the binary files and of the HDF5 file, [dir] the directory of the file. *)
Theorem C38_roundtrip_partial {F} (N : xnums F) format base h5name dir m :
  lstrip base = base -> file_name h5name -> xmesh_ok N format m ->
  exists grid st, write_xdmf N format base h5name m = Ok (grid, st) /\
    read_xdmf N (st_bins st) (xdmf_h5_files dir h5name st) dir grid =
    Ok (Some (xm_points m), xdmf_cells (xm_cells m), xm_pd m, recut (xdmf_cells (xm_cells m)) (xm_cd m)).
Proof. intros H1 H2. now apply (xdmf_roundtrip N format base h5name dir). Qed.
Print Assumptions C38_roundtrip_partial.

(** Integers stand for floating point numbers in the examples. *)
Definition ex_nums : xnums Z := XNums _ (fun _ => str_of_Z) (fun _ => parse_Z) str_of_Z
  (fun dt => let w := match dget dt dtype_width with Some w => w | None => 0 end in
     Codec (fun v => sint_bytes false w (match v with Int z => z | Real z => z end))
           (fun b => let z := sint_value false b in if startswith dt "float" then Real z else Int z)).
Definition ex_fl (tail : list nat) (rows : list (list Z)) : xarr Z := XArr "float64" tail (map (map Real) rows).
Definition ex_xdmf : xmesh (F := Z) := XMesh (ex_fl [3] [[0; 0; 0]; [1; -2; 3]; [4; 5; 6]]%Z) "int32"
  [Block "line" [[0; 1]]; Block "triangle" [[0; 1; 2]; [2; 1; 0]]; Block "triangle" [[1; 2; 0]]; Block "quad" [[0; 1; 2; 0]]]%Z
  [("u", ex_fl [] [[7]; [-8]; [9]]%Z); ("v", ex_fl [3] [[1; 2; 3]; [4; 5; 6]; [7; 8; 9]]%Z)]
  [("w", XCd "int32" [] (map (map (map Int)) [[[1]]; [[2]; [3]]; [[4]]; [[5]]]%Z))].
Lemma ex_num_int dt z : In dt ["int32"; "int64"] -> (-100 <= z < 100)%Z -> num_ok ex_nums dt (Int z).
Proof.
  intros Hd Hz. assert (H : exists n, (n < 200)%nat /\ z = (Z.of_nat n - 100)%Z) by (exists (Z.to_nat (z + 100)); lia).
  destruct H as (n & Hn & ->).
  assert (G : forallb (fun n => let v := Int (Z.of_nat n - 100) in
     forallb (fun dt => Nat.eqb (length (enc (x_codec ex_nums dt) v)) (match dget dt dtype_width with Some w => w | None => 0 end) &&
       match dec (x_codec ex_nums dt) (enc (x_codec ex_nums dt) v) with Int z' => Z.eqb z' (Z.of_nat n - 100) | Real _ => false end) ["int32"; "int64"]) (seq 0 200) = true) by now vm_compute.
  rewrite forallb_forall in G. specialize (G n). rewrite in_seq in G. specialize (G (conj (Nat.le_0_l n) Hn)). cbv zeta in G.
  rewrite forallb_forall in G. specialize (G dt Hd). apply andb_true_iff in G. destruct G as [G1 G2]. apply Nat.eqb_eq in G1.
  split; [|split].
  - cbn in Hd. destruct Hd as [<- | [<- | []]]; reflexivity.
  - intros w Hw. now rewrite Hw in G1.
  - unfold exact. destruct (dec _ _); [|discriminate]. apply Z.eqb_eq in G2. now subst.
Qed.
Lemma ex_num_real z : In z [0; 1; -2; 3; 4; 5; 6; 7; -8; 9; 2; 8]%Z -> num_ok ex_nums "float64" (Real z).
Proof.
  intros H. cbn in H. repeat (destruct H as [<-|H]; [split; [repeat split; now vm_compute|split; [intros w E; vm_compute in E; injection E as <-; now vm_compute|now vm_compute]]|]).
  destruct H.
Qed.
Local Ltac fa := repeat first [apply Forall_nil | apply Forall_cons].
Local Ltac nums := repeat first [apply Forall_nil | apply Forall_cons | apply ex_num_real; cbn; tauto | apply ex_num_int; [cbn; tauto|lia] | split; [apply ex_num_int; [cbn; tauto|lia]|]].
Example C38_hypotheses format : In format ["XML"; "Binary"; "HDF"] -> xmesh_ok ex_nums format ex_xdmf.
Proof.
  intros Hf. assert (G : forall dt tail rows, In dt text_dtypes -> length tail <= 1 -> format_ok false format (XArr dt tail rows : xarr Z)).
  { intros dt tail rows H1 H2. unfold format_ok. cbn in Hf. destruct Hf as [<- | [<- | [<- | []]]]; auto. }
  split; [exact Hf|]. split; [right; reflexivity|]. split; [split; [cbn; tauto|]; cbn [xm_points ex_xdmf ex_fl xa_rows map xa_tail xa_dtype]; fa; (split; [reflexivity|nums])|].
  split; [apply G; cbn; auto; tauto|]. split.
  { cbn. split; [discriminate|]. split; [fa; unfold mixed_cell; cbn; auto 12|]. fa; (split; [discriminate|cbn; auto 12]). }
  split. { split; [cbn; tauto|]. split; [intros _ _ E; discriminate|]. split.
    - cbn [xm_cells ex_xdmf bdata]. fa; (split; apply ex_num_int; (cbn; tauto) || lia).
    - split; [|discriminate]. intros z Hz. split; apply ex_num_int; (cbn; tauto) || lia. }
  split; split.
  - cbn. repeat constructor; cbn; intuition discriminate.
  - constructor; [|constructor; [|constructor]]; (split; [split; [cbn; tauto|]; cbn [snd ex_fl xa_rows map xa_tail xa_dtype]; fa; (split; [reflexivity|nums])|]);
    (split; [apply G; cbn; auto; tauto|eexists; reflexivity]).
  - cbn. repeat constructor; cbn; intuition discriminate.
  - split; [discriminate|]. constructor; [|constructor]. split; [reflexivity|]. split; [split; [cbn; tauto|]|split; [apply G; cbn; auto; tauto|eexists; reflexivity]].
    cbn [snd cd_whole cd_rows xa_rows map concat app xa_tail cd_tail xa_dtype cd_dtype]. fa; (split; [reflexivity|nums]).
Qed.
Example C38_instance format : In format ["XML"; "Binary"; "HDF"] ->
  (do w <- write_xdmf ex_nums format "mesh" "mesh.h5" ex_xdmf;
   read_xdmf ex_nums (st_bins (snd w)) (xdmf_h5_files "/tmp" "mesh.h5" (snd w)) "/tmp" (fst w)) =
  Ok (Some (xm_points ex_xdmf), [Block "line" [[0; 1]]; Block "triangle" [[0; 1; 2]; [2; 1; 0]; [1; 2; 0]]; Block "quad" [[0; 1; 2; 0]]]%Z, xm_pd ex_xdmf,
      [("w", XCd "int32" [] (map (map (map Int)) [[[1]]; [[2]; [3]; [4]]; [[5]]]%Z))]).
Proof. intros H. cbn in H. destruct H as [<- | [<- | [<- | []]]]; now vm_compute. Qed.

(** The full claim (all blocks of all types of the tables) is false.  The writer gives vertices a number
    of nodes the reader does not expect: *)
Definition mixed_roundtrip (bs : list block) : Prop :=
  match topology (F := Z) false "int64" bs with
  | Ok (Some (_, _, a)) => exists rows, to_ints (xa_rows a) = Ok rows /\ translate_mixed_cells (concat rows) = Ok (regroup (all_cells bs))
  | _ => False
  end.
Example C38_mixed_instance : mixed_roundtrip [Block "tetra" [[0; 1; 2; 3]]; Block "line" [[4; 5]; [6; 7]]; Block "tetra" [[7; 6; 5; 4]]]%Z.
Proof. vm_compute. eexists. split; reflexivity. Qed.
Theorem C38_vertex_refuted : ~ (forall bs, Forall mixed_cell (all_cells bs) -> 1 < length bs -> all_cells bs <> [] -> mixed_roundtrip bs).
Proof.
  intros H. destruct (H [Block "vertex" [[7]]; Block "triangle" [[0; 1; 2]]]%Z) as (rows & E1 & E2).
  - fa; unfold mixed_cell; cbn; auto 12.
  - cbn. repeat constructor.
  - discriminate.
  - vm_compute in E1. injection E1 as <-. vm_compute in E2. discriminate.
Qed.
Print Assumptions C38_vertex_refuted.
(** Higher-order cells are written, and cannot be read. *)
Theorem C38_higher_order_refuted : ~ (forall bs, Forall (fun b => In (btype b) (dkeys meshio_to_xdmf_type) /\ rectangular b) bs -> Forall (fun b => btype b <> "vertex") bs -> 1 < length bs -> mixed_roundtrip bs).
Proof.
  intros H. destruct (H [Block "triangle6" [[0; 1; 2; 3; 4; 5]]; Block "triangle" [[0; 1; 2]]]%Z) as (rows & E1 & E2).
  - constructor; [|constructor; [|constructor]]; (split; [cbn; auto 30|]); [exists 6|exists 3]; repeat constructor.
  - repeat constructor; discriminate.
  - cbn. repeat constructor.
  - vm_compute in E1. injection E1 as <-. vm_compute in E2. discriminate.
Qed.
Print Assumptions C38_higher_order_refuted.
(** So are several blocks without any cell. *)
Theorem C38_empty_refuted : ~ (forall bs, Forall mixed_cell (all_cells bs) -> 1 < length bs -> mixed_roundtrip bs).
Proof.
  intros H. destruct (H [Block "triangle" []; Block "quad" []]%Z) as (rows & E1 & E2).
  - constructor.
  - cbn. repeat constructor.
  - vm_compute in E1. injection E1 as <-. vm_compute in E2. discriminate.
Qed.
Print Assumptions C38_empty_refuted.

(** ** C39: time series *)

(** After [write_points_cells], for every sequence of [write_data] calls: every call succeeds, the number of
    steps is the number of calls, the mesh is read back, and step [k] has the time, the point data and the
    cell data of the [k]-th call.  [dir], the directory of the file, is the working directory. *)
Theorem C39_history_partial {F} (N : xnums F) format base h5name dir (points : xarr F) ctype cells steps :
  lstrip base = base -> file_name h5name -> In format ["XML"; "Binary"; "HDF"] ->
  (xa_tail points = [2] \/ xa_tail points = [3]) -> arr_ok N points -> format_ok true format points ->
  xdmf_cells_ok true cells -> cell_dtype_ok N true format ctype cells -> Forall (step_ok N format cells) steps ->
  exists w0 w, ts_write_mesh N format base h5name points ctype cells ts_init = Ok w0 /\
    write_steps N format base h5name steps w0 = (w, repeat (Ok tt) (length steps)) /\
    length (w_steps w) = length steps /\
    ts_read_mesh N (st_bins (w_store w)) (ts_h5_files dir h5name (w_store w)) dir w = Ok (Some points, xdmf_cells cells) /\
    forall k s, nth_error steps k = Some s ->
      ts_read_data N (st_bins (w_store w)) (ts_h5_files dir h5name (w_store w)) dir (xdmf_cells cells) w k =
      Ok (sp_time s, sp_pd s, recut (xdmf_cells cells) (sp_cd s)).
Proof. intros H1 H2. now apply time_series. Qed.
Print Assumptions C39_history_partial.

Definition ex_cells : list block := [Block "triangle" [[0; 1; 2]; [2; 1; 0]]; Block "quad" [[0; 1; 2; 0]]]%Z.
Definition ex_steps : list (step (F := Z)) :=
  [Step 0%Z [("u", ex_fl [] [[7]; [-8]; [9]]%Z)] []; Step 5%Z [] [("w", XCd "int32" [] (map (map (map Int)) [[[1]; [2]]; [[3]]]%Z))];
   Step 3%Z [("u", ex_fl [] [[1]; [2]; [3]]%Z); ("v", ex_fl [3] [[1; 2; 3]; [4; 5; 6]; [7; 8; 9]]%Z)] []].
Example C39_hypotheses format : In format ["XML"; "Binary"; "HDF"] ->
  xdmf_cells_ok true ex_cells /\ cell_dtype_ok ex_nums true format "int32" ex_cells /\ Forall (step_ok ex_nums format ex_cells) ex_steps.
Proof.
  intros Hf. assert (G : forall dt tail rows, In dt text_dtypes -> concat rows <> [] -> format_ok true format (XArr dt tail rows : xarr Z)).
  { intros dt tail rows H1 H2. unfold format_ok. cbn in Hf. destruct Hf as [<- | [<- | [<- | []]]]; auto. }
  split; [|split].
  - cbn. split; [discriminate|]. split; [fa; unfold mixed_cell; cbn; auto 12|]. fa; (split; [discriminate|cbn; auto 12]).
  - split; [cbn; tauto|]. split; [discriminate|]. split.
    + cbn [ex_cells bdata]. fa; (split; apply ex_num_int; (cbn; tauto) || lia).
    + split; [|discriminate]. intros z Hz. split; apply ex_num_int; (cbn; tauto) || lia.
  - assert (P : forall tail rows, Forall (fun r => length r = shape_size tail /\ Forall (fun z => In z [0; 1; -2; 3; 4; 5; 6; 7; -8; 9; 2; 8]%Z) r) rows -> concat rows <> [] -> attribute_ok tail ->
        arr_ok ex_nums (ex_fl tail rows) /\ format_ok true format (ex_fl tail rows) /\ attribute_ok (xa_tail (ex_fl tail rows))).
    { intros tail rows H1 H2 H3. split; [|split; [|exact H3]].
      - split; [cbn; tauto|]. unfold ex_fl. cbn [xa_rows xa_tail xa_dtype]. apply Forall_map. eapply Forall_impl; [|exact H1]. intros r [Hl Hr]. split; [now rewrite map_length|].
        apply Forall_map. eapply Forall_impl; [|exact Hr]. intros z. apply ex_num_real.
      - apply G; [cbn; tauto|]. rewrite <- concat_map. destruct (concat rows); [congruence|discriminate]. }
    constructor; [|constructor; [|constructor; [|constructor]]]; (split; [now vm_compute|]); split.
    + split; [repeat constructor; cbn; tauto|]. constructor; [|constructor]. apply P; [fa; (split; [reflexivity|fa; cbn; tauto])|discriminate|eexists; reflexivity].
    + repeat split; constructor.
    + repeat split; constructor.
    + split; [repeat constructor; cbn; tauto|]. split; [discriminate|]. constructor; [|constructor]. split; [reflexivity|]. split; [split; [cbn; tauto|]|split; [apply G; [cbn; tauto|discriminate]|eexists; reflexivity]].
      cbn [snd cd_whole cd_rows xa_rows map concat app xa_tail cd_tail xa_dtype cd_dtype]. fa; (split; [reflexivity|nums]).
    + split; [repeat constructor; cbn; intuition discriminate|]. constructor; [|constructor; [|constructor]]; (apply P; [fa; (split; [reflexivity|fa; cbn; tauto])|discriminate|eexists; reflexivity]).
    + repeat split; constructor.
Qed.
Example C39_instance format : In format ["XML"; "Binary"; "HDF"] ->
  match ts_write_mesh ex_nums format "ts" "ts.h5" (xm_points ex_xdmf) "int32" ex_cells ts_init with
  | Err _ => False
  | Ok w0 => let (w, _) := write_steps ex_nums format "ts" "ts.h5" ex_steps w0 in
      ts_read_data ex_nums (st_bins (w_store w)) (ts_h5_files "/tmp" "ts.h5" (w_store w)) "/tmp" ex_cells w 2 =
      Ok (3%Z, [("u", ex_fl [] [[1]; [2]; [3]]%Z); ("v", ex_fl [3] [[1; 2; 3]; [4; 5; 6]; [7; 8; 9]]%Z)], [])
  end.
Proof. intros H. cbn in H. destruct H as [<- | [<- | [<- | []]]]; now vm_compute. Qed.

(** A call before the mesh is written fails, and leaves a step behind that cannot be read: *)
Theorem C39_failed_call_refuted {F} (N : xnums F) format base h5name s bins h5s dir cells :
  let r := ts_write_data N format base h5name s ts_init in
  snd r = Err WriteError /\ length (w_steps (fst r)) = 1 /\ ts_read_data N bins h5s dir cells (fst r) 0 = Err ReadError.
Proof. repeat split. Qed.
Print Assumptions C39_failed_call_refuted.

(** With HDF data and a file that is not in the working directory, nothing can be read: *)
Theorem C39_directory_refuted :
  ~ (forall cwd dir w0, ts_write_mesh ex_nums "HDF" "ts" "ts.h5" (xm_points ex_xdmf) "int32" ex_cells ts_init = Ok w0 ->
     exists r, ts_read_mesh ex_nums [] (ts_h5_files cwd "ts.h5" (w_store w0)) dir w0 = Ok r).
Proof.
  intros H. destruct (H "/home" "/tmp" _ eq_refl) as [r E]. vm_compute in E. discriminate.
Qed.
Print Assumptions C39_directory_refuted.

(** Lines in a mixed topology cannot be written. *)
Theorem C39_line_refuted : ~ (forall bs, Forall mixed_cell (all_cells bs) -> all_cells bs <> [] ->
  exists w, ts_write_mesh ex_nums "XML" "ts" "ts.h5" (xm_points ex_xdmf) "int32" bs ts_init = Ok w).
Proof.
  intros H. destruct (H [Block "line" [[0; 1]]; Block "triangle" [[0; 1; 2]]]%Z) as [w E].
  - fa; unfold mixed_cell; cbn; auto 12.
  - discriminate.
  - vm_compute in E. discriminate.
Qed.
Print Assumptions C39_line_refuted.
