(** HMF, CGNS and H5M files (C55, C63) *)
From Coq Require Import Sorting.Permutation Sorting.Sorted.
From Verif.Lib Require Import Base Facts Facts2 Text TextFacts.
From Verif.Model Require Import Core Tables Xdmf Numpy Hdf5 Hdf.
From Verif.Spec Require Import Core Hdf.
From Verif.Proofs Require Import Core CoreMisc Gmsh Gmsh22 Gmsh22File Xdmf AbaqusFile Su2 Mdpa Numpy Hdf5.
Import Model.Numpy.
Local Arguments str_of_nat : simpl never.
Local Arguments str_of_Z : simpl never.

Lemma good_plain s : good_name s -> plain s.
Proof. intros H. exact (proj2 (proj2 H)). Qed.

Section Hdf.
Context {F : Type}.
Implicit Types m : hmesh F.

Lemma datasets_keys (d : dict (hval F)) : dkeys (datasets d) = dkeys d.
Proof. unfold dkeys, datasets. rewrite map_map. reflexivity. Qed.
Lemma sorted_datasets (d : dict (hval F)) : sorted_items (datasets d) = datasets (sorted_items d).
Proof. exact (sorted_map (fun v => Dataset [] v) d). Qed.
Lemma values_datasets a (d : dict (hval F)) : values (Group a (datasets d)) = Ok (sorted_items d).
Proof.
  unfold values. cbn [h5_items bind]. rewrite sorted_datasets. unfold datasets.
  generalize (sorted_items d). intros l. induction l as [|[k v] l IH]; [reflexivity|]. cbn [map mapM fst snd h5_value bind].
  rewrite IH. reflexivity.
Qed.
Lemma datasets_written (d : dict (hval F)) : NoDup (dkeys d) -> Forall plain (dkeys d) -> h5_create_all (datasets d) (Group [] []) = Ok (Group [] (datasets d)).
Proof. intros N P. rewrite create_all; [reflexivity|now rewrite datasets_keys|now rewrite datasets_keys|cbn; tauto]. Qed.

Lemma real_rows_points m : Forall (fun p => length p = hm_dim m) (hm_points m) -> real_rows (point_array m) = Ok (hm_dim m, hm_points m).
Proof. intros H. unfold real_rows, point_array, to_rows. cbn [nd_shape nd_flat bind nth]. now rewrite rows_of_concat. Qed.
Lemma check_points_ok n (pd : dict (hval F)) : Forall (fun kv => array_of n (snd kv)) pd -> check_points n pd = Ok tt.
Proof.
  induction 1 as [|[k v] pd Hv H IH]; [reflexivity|]. cbn [check_points snd] in *. destruct Hv as (s & E & _).
  assert (L : hv_len v = Ok n) by (destruct v as [a|a]; cbn in *; unfold nd_len; now rewrite E).
  rewrite L. cbn [bind]. now rewrite Nat.eqb_refl.
Qed.
Lemma make_blocks_ok (bs : list block) : Forall (fun b => known_type (btype b)) bs -> make_blocks (map (fun b => (btype b, bdata b)) bs) = Ok bs.
Proof.
  induction 1 as [|b bs Hb H IH]; [reflexivity|]. cbn [map make_blocks]. rewrite IH.
  apply cellblock_dim_known in Hb. destruct Hb as [d ->]. cbn. now destruct b.
Qed.

(** ** HMF *)
Definition xname (t : string) : string := match dget t meshio_to_xdmf_type with Some (x :: _) => x | _ => "" end.
Lemma xname_ok t : In t (dkeys meshio_to_xdmf_type) ->
  (exists l, dget t meshio_to_xdmf_type = Some (xname t :: l)) /\ dget (xname t) xdmf_to_meshio_type = Some t.
Proof.
  assert (C : forallb (fun t => match dget t meshio_to_xdmf_type with
                                | Some (x :: _) => match dget x xdmf_to_meshio_type with Some t' => String.eqb t t' | None => false end
                                | _ => false end) (dkeys meshio_to_xdmf_type) = true) by now vm_compute.
  rewrite forallb_forall in C. intros H. specialize (C t H). unfold xname.
  destruct (dget t meshio_to_xdmf_type) as [[|x l]|]; try discriminate.
  destruct (dget x xdmf_to_meshio_type) as [t'|] eqn:E; [|discriminate]. apply String.eqb_eq in C. subst t'. split; eauto.
Qed.
Definition topology (kb : nat * block) : string * h5 F :=
  (("Topology" ++ str_of_nat (fst kb))%string, Dataset [("TopologyType", AStr (xname (btype (snd kb))))] (HInts (of_rows (bdata (snd kb))))).
Lemma topologies bs : Forall (fun b => In (btype b) (dkeys meshio_to_xdmf_type)) bs ->
  mapM hmf_topology (enumerate bs) = Ok (map topology (enumerate bs)).
Proof.
  intros H. apply mapM_ok_in. intros [k b] Hin. assert (Hb : In b bs).
  { rewrite <- (enumerate_snd bs). change b with (snd (k, b)). now apply in_map. }
  rewrite Forall_forall in H. destruct (xname_ok _ (H b Hb)) as [[l E] _]. unfold hmf_topology. cbn [fst snd]. rewrite E. reflexivity.
Qed.
Lemma topology_plain kb : plain (fst (topology kb)).
Proof. unfold plain, topology. cbn [fst]. rewrite char_in_app, char_in_nat; [reflexivity|reflexivity|discriminate]. Qed.
Lemma topology_keys l : map fst (map topology l) = map (fun k => ("Topology" ++ str_of_nat k)%string) (map fst l).
Proof. now rewrite !map_map. Qed.
Lemma topology_nodup bs : NoDup (dkeys (map topology (enumerate bs))).
Proof.
  unfold dkeys. rewrite topology_keys. apply FinFun.Injective_map_NoDup.
  - intros a b E. apply append_cancel_l in E. now apply str_of_nat_inj.
  - unfold enumerate. rewrite map_fst_combine by apply seq_length. apply seq_NoDup.
Qed.
Lemma topology_after x kb : In x ["CellAttributes"; "Geometry"; "NodeAttributes"] -> String.leb x (fst (topology kb)) = true.
Proof. intros [<-|[<-|[<-|[]]]]; reflexivity. Qed.

Lemma grid_sorted (geo na ca : h5 F) bs :
  sorted_items ((([("Geometry", geo)] ++ map topology (enumerate bs)) ++ [("NodeAttributes", na)]) ++ [("CellAttributes", ca)])
  = ("CellAttributes", ca) :: ("Geometry", geo) :: ("NodeAttributes", na) :: sorted_items (map topology (enumerate bs)).
Proof.
  apply sorted_eq.
  - assert (T : forall n x, In n ["CellAttributes"; "Geometry"; "NodeAttributes"] -> Forall (name_le (n, x)) (sorted_items (map topology (enumerate bs)))).
    { intros n x Hn. eapply Permutation_Forall; [symmetry; apply sorted_perm|]. apply Forall_map. apply Forall_forall. intros kb _.
      unfold name_le. cbn [fst]. now apply topology_after. }
    repeat constructor; try reflexivity; try (apply T; cbn; tauto). apply sorted_sorted.
  - rewrite sorted_perm. symmetry.
    transitivity (("CellAttributes", ca) :: ([("Geometry", geo)] ++ map topology (enumerate bs)) ++ [("NodeAttributes", na)]); [|apply Permutation_cons_append].
    constructor. cbn. constructor. apply Permutation_cons_append.
  - assert (Hn : forall n, In n ["CellAttributes"; "Geometry"; "NodeAttributes"] -> ~ In n (dkeys (sorted_items (map topology (enumerate bs))))).
    { intros n Hn Hi. unfold dkeys in Hi.
      apply (Permutation_in (l' := map fst (map topology (enumerate bs)))) in Hi; [|apply Permutation_map, sorted_perm].
      rewrite topology_keys in Hi. apply in_map_iff in Hi. destruct Hi as (k & E & _). subst n. destruct Hn as [Hn|[Hn|[Hn|[]]]]; discriminate. }
    cbn [dkeys map fst]. constructor.
    { intros [H|[H|H]]; try discriminate. revert H. apply Hn. cbn; tauto. }
    constructor.
    { intros [H|H]; try discriminate. revert H. apply Hn. cbn; tauto. }
    constructor; [apply Hn; cbn; tauto|]. apply sorted_keys_nodup, topology_nodup.
Qed.

(** Ten topologies are in order. *)
Fixpoint ordered (l : list string) : bool :=
  match l with [] => true | x :: l' => forallb (String.leb x) l' && ordered l' end.
Lemma ordered_sorted {A} (l : list (string * A)) : ordered (map fst l) = true -> StronglySorted name_le l.
Proof.
  induction l as [|[k v] l IH]; cbn; [constructor|]. rewrite andb_true_iff. intros [H1 H2]. constructor; auto.
  rewrite forallb_forall in H1. apply Forall_forall. intros y Hy. unfold name_le. cbn. apply H1. now apply in_map.
Qed.
Lemma ten_sorted bs : length bs <= 10 -> sorted_items (map topology (enumerate bs)) = map topology (enumerate bs).
Proof.
  intros H. apply sorted_eq; [|reflexivity|apply topology_nodup]. apply ordered_sorted. rewrite topology_keys.
  unfold enumerate. rewrite map_fst_combine by apply seq_length.
  remember (length bs) as n eqn:En. clear En. do 11 (destruct n as [|n]; [now vm_compute|]). lia.
Qed.

Lemma members_app (l1 l2 : list (string * h5 F)) : forall s, hmf_members (l1 ++ l2) s = bind (hmf_members l1 s) (hmf_members l2).
Proof.
  induction l1 as [|kv l1 IH]; intros s; cbn [app hmf_members bind]; [reflexivity|].
  destruct (hmf_member kv s); cbn [bind]; auto.
Qed.
Definition store (kb : nat * block) (d : dict (list cell)) : dict (list cell) := dset (btype (snd kb)) (bdata (snd kb)) d.
Lemma members_topology l : forall s,
  Forall (fun kb => In (btype (snd kb)) (dkeys meshio_to_xdmf_type) /\ exists w, Forall (fun c => length c = w) (bdata (snd kb))) l ->
  hmf_members (map topology l) s = Ok (HmfState (hs_points s) (fold_left (fun d kb => store kb d) l (hs_cells s)) (hs_pd s) (hs_cd s)).
Proof.
  induction l as [|[k b] l IH]; intros s H; cbn [map hmf_members fold_left]; [now destruct s|].
  inversion H as [|? ? [Hb [w Hw]] Hl]; subst. cbn [snd] in Hb, Hw. unfold hmf_member at 1. unfold topology at 1. cbn [fst snd].
  assert (E : substring 0 8 ("Topology" ++ str_of_nat k) = "Topology") by (cbn; now destruct (str_of_nat k)).
  rewrite E. rewrite String.eqb_refl. rewrite attr_str_here. cbn [bind].
  destruct (xname_ok _ Hb) as [_ X]. cbn [bind]. rewrite X. cbn [of_option bind h5_value int_rows].
  rewrite (to_of_rows _ w) by auto. cbn [bind]. rewrite IH by auto. reflexivity.
Qed.

Definition raw_of (cd : dict (list (hval F))) : result (dict (hval F)) := mapM (fun kv => do v <- hv_concat (snd kv); Ok (fst kv, v)) cd.
Lemma raw_keys cd raw : raw_of cd = Ok raw -> dkeys raw = dkeys cd.
Proof.
  intros H. apply mapM_Forall2 in H. unfold dkeys. induction H as [|x y l1 l2 E H IH]; [reflexivity|]. cbn. rewrite IH. f_equal.
  destruct (hv_concat (snd x)); [|discriminate]. cbn in E. assert (E2 : y = (fst x, a)) by congruence. now subst y.
Qed.

Lemma read_grid a (its : list (string * h5 F)) :
  read_hmf (Group [("type", AStr "hmf"); ("version", AStr "0.1-alpha")] [("domain", Group [] [("grid", Group a its)])]) =
  (do s <- hmf_members (sorted_items its) (HmfState None [] [] []);
   let cs := butlast (cumsum (map String.length (dkeys (hs_cells s)))) in
   do cd <- mapM (fun kv => do l <- hv_split cs (snd kv); Ok (fst kv, l)) (hs_cd s);
   do p <- of_option TypeError (hs_points s);
   make_mesh p (hs_cells s) (hs_pd s) cd).
Proof. reflexivity. Qed.
Lemma hmf_file m raw : hdf_mesh m -> 1 <= hm_dim m <= 3 ->
  Forall (fun b => In (btype b) (dkeys meshio_to_xdmf_type)) (hm_cells m) -> raw_of (hm_cd m) = Ok raw ->
  exists sigma, Permutation sigma (enumerate (hm_cells m)) /\ (length (hm_cells m) <= 10 -> sigma = enumerate (hm_cells m)) /\
    bind (write_hmf m) read_hmf =
    (let cells := fold_left (fun d kb => store kb d) sigma [] in
     let cs := butlast (cumsum (map String.length (dkeys cells))) in
     do cd <- mapM (fun kv => do l <- hv_split cs (snd kv); Ok (fst kv, l)) (sorted_items raw);
     make_mesh (hm_dim m, hm_points m) cells (sorted_items (hm_pd m)) cd).
Proof.
  intros Hm Hd Ht Hr. destruct Hm as [Hp Hb Hpd Npd Hcd Ncd].
  assert (Ppd : Forall plain (dkeys (hm_pd m))).
  { unfold dkeys. apply Forall_map. eapply Forall_impl; [|exact Hpd]. intros kv [H _]. now apply good_plain. }
  assert (Pcd : Forall plain (dkeys raw)).
  { rewrite (raw_keys _ _ Hr). unfold dkeys. apply Forall_map. eapply Forall_impl; [|exact Hcd]. intros kv [H _]. now apply good_plain. }
  assert (Nraw : NoDup (dkeys raw)) by (rewrite (raw_keys _ _ Hr); exact Ncd).
  destruct (Permutation_map_inv topology _ (sorted_perm (map topology (enumerate (hm_cells m))))) as (sigma & Es & Ps).
  assert (Es10 : exists sigma, sorted_items (map topology (enumerate (hm_cells m))) = map topology sigma /\
             Permutation sigma (enumerate (hm_cells m)) /\ (length (hm_cells m) <= 10 -> sigma = enumerate (hm_cells m))).
  { destruct (Nat.le_gt_cases (length (hm_cells m)) 10) as [L|L].
    - exists (enumerate (hm_cells m)). split; [now apply ten_sorted|]. split; auto.
    - exists sigma. split; [auto|]. split; [now symmetry|lia]. }
  clear sigma Es Ps. destruct Es10 as (sigma & Es & Ps & E10). exists sigma. split; [exact Ps|]. split; [exact E10|].
  unfold write_hmf. rewrite create_new; [|reflexivity|cbn; tauto]. cbn [bind]. rewrite topologies by auto. cbn [bind].
  rewrite create_all.
  2: { unfold dkeys. rewrite topology_keys. apply Forall_map. apply Forall_forall. intros k _. apply (topology_plain (k, Block "" [])). }
  2: apply topology_nodup.
  2: { intros n Hn. unfold dkeys in Hn. rewrite topology_keys in Hn. apply in_map_iff in Hn. destruct Hn as (k & <- & _). cbn. intuition discriminate. }
  cbn [bind]. rewrite datasets_written by auto. cbn [bind].
  assert (Hn : forall n l, In n ["CellAttributes"; "NodeAttributes"] -> ~ In n (map fst l) -> ~ In n (dkeys ([("Geometry", hmf_geometry m)] ++ map topology (enumerate (hm_cells m)) ++ l))).
  { intros n l Hn Hl. rewrite !dkeys_app. unfold dkeys. rewrite topology_keys. rewrite !in_app_iff. intros [H|[H|H]]; auto.
    - cbn in H. destruct H as [<-|[]]. destruct Hn as [Hn|[Hn|[]]]; discriminate.
    - apply in_map_iff in H. destruct H as (k & <- & _). destruct Hn as [Hn|[Hn|[]]]; discriminate. }
  rewrite create_new; [|reflexivity|].
  2: { assert (G := Hn "NodeAttributes" []). rewrite app_nil_r in G. apply G; cbn; tauto. }
  cbn [bind]. change (mapM _ (hm_cd m)) with (raw_of (hm_cd m)). rewrite Hr. cbn [bind]. rewrite datasets_written by auto. cbn [bind].
  rewrite create_new; [|reflexivity|].
  2: { rewrite <- app_assoc. apply Hn; cbn; intuition discriminate. }
  cbn [bind app]. rewrite read_grid.
  match goal with |- context [sorted_items (("Geometry", ?g) :: (?t ++ [("NodeAttributes", ?n)]) ++ [("CellAttributes", ?c)])] =>
    change (sorted_items (("Geometry", g) :: (t ++ [("NodeAttributes", n)]) ++ [("CellAttributes", c)]))
      with (sorted_items ((([("Geometry", g)] ++ t) ++ [("NodeAttributes", n)]) ++ [("CellAttributes", c)])) end.
  rewrite grid_sorted, Es.
  match goal with |- context [hmf_members (?a :: ?b :: ?c :: ?t) ?s] => change (hmf_members (a :: b :: c :: t) s) with (hmf_members ([a; b; c] ++ t) s) end.
  rewrite members_app.
  match goal with |- context [hmf_members [?a; ?b; ?c] ?s] =>
    assert (E3 : hmf_members [a; b; c] s = Ok (HmfState (Some (hm_dim m, hm_points m)) [] (sorted_items (hm_pd m)) (sorted_items raw))) end.
  { cbn [hmf_members]. unfold hmf_member at 1. cbn [substring]. change (String.eqb "CellAttr" "Topology") with false.
    change (String.eqb "CellAttributes" "Geometry") with false. change (String.eqb "CellAttributes" "CellAttributes") with true. cbv iota.
    rewrite values_datasets. cbn [bind hs_points hs_cells hs_pd hs_cd]. rewrite dupdate_nil by now apply sorted_keys_nodup.
    unfold hmf_member at 1. cbn [substring]. change (String.eqb "Geometry" "Topology") with false. change (String.eqb "Geometry" "Geometry") with true. cbv iota.
    unfold hmf_geometry at 1. rewrite attr_str_here. cbn [bind].
    assert (G : negb (smem (substring 0 (hm_dim m) "XYZ") ["X"; "XY"; "XYZ"]) = false).
    { destruct (hm_dim m) as [|[|[|[|d]]]]; try lia; reflexivity. }
    rewrite G. unfold hmf_geometry. cbn [h5_value bind]. rewrite real_rows_points by auto. cbn [bind].
    unfold hmf_member at 1. cbn [substring]. change (String.eqb "NodeAttr" "Topology") with false.
    change (String.eqb "NodeAttributes" "Geometry") with false. change (String.eqb "NodeAttributes" "CellAttributes") with false.
    change (String.eqb "NodeAttributes" "NodeAttributes") with true. cbn [negb]. cbv iota.
    rewrite values_datasets. cbn [bind hs_points hs_cells hs_pd hs_cd]. rewrite dupdate_nil by now apply sorted_keys_nodup. reflexivity. }
  rewrite E3. cbn [bind]. rewrite members_topology.
  - cbn [bind hs_points hs_cells hs_pd hs_cd of_option]. reflexivity.
  - eapply Permutation_Forall; [symmetry; exact Ps|]. apply Forall_forall. intros [k b] Hin. cbn [snd].
    assert (Hbin : In b (hm_cells m)) by (rewrite <- (enumerate_snd (hm_cells m)); change b with (snd (k, b)); now apply in_map).
    rewrite Forall_forall in Ht, Hb. split; [now apply Ht|]. now apply Hb.
Qed.

Lemma pd_check m : hdf_mesh m -> check_points (length (hm_points m)) (sorted_items (hm_pd m)) = Ok tt.
Proof.
  intros Hm. apply check_points_ok. eapply Permutation_Forall; [symmetry; apply sorted_perm|].
  eapply Forall_impl; [|apply (hdf_pd m Hm)]. intros kv [_ H]. exact H.
Qed.
Lemma store_fold sigma : fold_left (fun d kb => store kb d) sigma [] =
  fold_left (fun d s => dset (fst s) (snd s) d) (map (fun b => (btype b, bdata b)) (map snd sigma)) [].
Proof. generalize (@nil (string * list cell)). induction sigma as [|[k b] l IH]; intros d; [reflexivity|]. cbn. apply IH. Qed.
Lemma store_distinct sigma : NoDup (map btype (map snd sigma)) ->
  fold_left (fun d kb => store kb d) sigma [] = map (fun b => (btype b, bdata b)) (map snd sigma).
Proof.
  intros H. rewrite store_fold. rewrite fold_dset_new; [reflexivity| |reflexivity]. unfold dkeys. rewrite map_map. exact H.
Qed.
Lemma make_mesh_ok m bs : hdf_mesh m -> Forall (fun b => known_type (btype b)) bs -> forall cd,
  check_cells (map blen bs) (map (fun kv => (fst kv, map Some (snd kv))) cd) = Ok tt ->
  make_mesh (hm_dim m, hm_points m) (map (fun b => (btype b, bdata b)) bs) (sorted_items (hm_pd m)) cd
  = Ok (HMesh (hm_dim m) (hm_points m) bs (sorted_items (hm_pd m)) cd).
Proof. intros Hm Hb cd Hc. unfold make_mesh. rewrite make_blocks_ok by auto. cbn [bind fst snd]. rewrite pd_check by auto. cbn [bind]. now rewrite Hc. Qed.

Lemma nd_concat_one {A} (a : nda A) n s : nd_shape a = n :: s -> nd_concat [a] = Ok a.
Proof.
  intros E. unfold nd_concat. rewrite E. cbn [forallb]. rewrite E. destruct (list_eq_dec Nat.eq_dec s s); [|congruence].
  cbn. rewrite E. cbn. rewrite Nat.add_0_r, app_nil_r. destruct a; cbn in *. now subst.
Qed.
Lemma hv_concat_one v n : array_of n v -> hv_concat [v] = Ok (v : hval F).
Proof. intros (s & E & _). destruct v as [a|a]; cbn [hv_shape] in E; cbn [hv_concat mapM bind]; now rewrite (nd_concat_one _ _ _ E). Qed.
Lemma hv_split_one (v : hval F) n : array_of n v -> hv_split [] v = Ok [v].
Proof.
  intros (s & E & H). destruct v as [a|a]; cbn [hv_shape count] in *; unfold hv_split, nd_split; rewrite E; cbn [bind map np_split np_split_from skipn]; rewrite rows_of_length, concat_rows_of by exact H; destruct a; cbn in *; now subst.
Qed.
Lemma check_cells_one b (cd : dict (hval F)) : Forall (fun kv => array_of (length (bdata b)) (snd kv)) cd ->
  check_cells [blen b] (map (fun kv => (fst kv, map Some (snd kv))) (map (fun kv => (fst kv, [snd kv])) cd)) = Ok tt.
Proof.
  induction 1 as [|[k v] cd Hv H IH]; [reflexivity|]. cbn [map check_cells length Nat.eqb fst snd check_blocks] in *.
  destruct Hv as (s & E & _). assert (L : hv_len v = Ok (blen b)) by (destruct v as [a|a]; cbn in *; unfold nd_len; now rewrite E).
  rewrite L. cbn [bind]. rewrite Nat.eqb_refl. exact IH.
Qed.

Lemma hmf_roundtrip m : hdf_mesh m -> 1 <= hm_dim m <= 3 -> distinct_types m ->
  Forall (fun b => In (btype b) (dkeys meshio_to_xdmf_type)) (hm_cells m) -> hm_cd m = [] \/ length (hm_cells m) = 1 ->
  exists bs pd cd, bind (write_hmf m) read_hmf = Ok (HMesh (hm_dim m) (hm_points m) bs pd cd) /\
    Permutation bs (hm_cells m) /\ (length (hm_cells m) <= 10 -> bs = hm_cells m) /\ Permutation pd (hm_pd m) /\ Permutation cd (hm_cd m).
Proof.
  intros Hm Hd Hn Ht Hc.
  assert (Hk : Forall (fun b => known_type (btype b)) (hm_cells m)) by (eapply Forall_impl; [|apply (hdf_blocks m Hm)]; intros b [H _]; exact H).
  destruct Hc as [Hc|Hc].
  - destruct (hmf_file m [] Hm Hd Ht) as (sigma & Ps & E10 & E); [now rewrite Hc|]. rewrite E. cbv zeta. clear E.
    assert (Pb : Permutation (map snd sigma) (hm_cells m)) by (rewrite <- (enumerate_snd (hm_cells m)); now apply Permutation_map).
    rewrite store_distinct by (eapply Permutation_NoDup; [|exact Hn]; apply Permutation_map; now symmetry).
    exists (map snd sigma), (sorted_items (hm_pd m)), []. split.
    { cbn [sorted_items fold_right mapM bind]. apply make_mesh_ok; auto. eapply Permutation_Forall; [symmetry; exact Pb|auto]. }
    split; [auto|]. split; [intros L; rewrite (E10 L); apply enumerate_snd|]. split; [apply sorted_perm|now rewrite Hc].
  - destruct (hm_cells m) as [|b [|b2 bs]] eqn:Ecells; try discriminate.
    assert (Hcd : Forall (fun kv => exists v, snd kv = [v] /\ array_of (length (bdata b)) v) (hm_cd m)).
    { eapply Forall_impl; [|apply (hdf_cd m Hm)]. intros kv [_ H]. rewrite Ecells in H. inversion H as [|v x l1 l2 Hv Hl]; subst. inversion Hl; subst. eauto. }
    assert (R : exists raw, raw_of (hm_cd m) = Ok raw /\ hm_cd m = map (fun kv => (fst kv, [snd kv])) raw /\ Forall (fun kv => array_of (length (bdata b)) (snd kv)) raw).
    { clear -Hcd. unfold raw_of. induction Hcd as [|[k l] cd (v & Ev & Hv) H (raw & R1 & R2 & R3)]; [exists []; auto|].
      cbn [snd] in Ev. subst l. exists ((k, v) :: raw). cbn [mapM fst snd]. rewrite (hv_concat_one v _ Hv). cbn [bind]. rewrite R1. cbn [bind].
      split; [reflexivity|]. split; [cbn; now rewrite R2|]. now constructor. }
    destruct R as (raw & R1 & R2 & R3).
    assert (Ht1 := Ht). rewrite <- Ecells in Ht1. destruct (hmf_file m raw Hm Hd Ht1 R1) as (sigma & Ps & E10 & E). rewrite E. cbv zeta. clear E.
    rewrite Ecells in E10. rewrite (E10 ltac:(cbn; lia)). cbn [enumerate length seq combine fold_left snd].
    change (store (0, b) []) with [(btype b, bdata b)]. cbn [dkeys map fst cumsum cumsum_from butlast removelast].
    assert (S : mapM (fun kv => do l <- hv_split [] (snd kv); Ok (fst kv, l)) (sorted_items raw) = Ok (map (fun kv => (fst kv, [snd kv])) (sorted_items raw))).
    { apply mapM_ok_in. intros [k v] Hin. cbn [fst snd]. rewrite (hv_split_one v (length (bdata b))); [reflexivity|].
      rewrite Forall_forall in R3. apply (R3 (k, v)). eapply Permutation_in; [apply sorted_perm|exact Hin]. }
    rewrite S. cbn [bind]. exists [b], (sorted_items (hm_pd m)), (map (fun kv => (fst kv, [snd kv])) (sorted_items raw)). split.
    { apply (make_mesh_ok m [b]); auto. cbn [map]. apply check_cells_one. eapply Permutation_Forall; [symmetry; apply sorted_perm|exact R3]. }
    split; [auto|]. split; [auto|]. split; [apply sorted_perm|]. rewrite R2. apply Permutation_map, sorted_perm.
Qed.

(** Any blocks: the last one of every type *)
Lemma last_block_snoc t bs b : last_block t (bs ++ [b]) = if String.eqb (btype b) t then bdata b else last_block t bs.
Proof.
  induction bs as [|c bs IH]; cbn [app last_block existsb]; [reflexivity|].
  rewrite existsb_app. cbn [existsb]. rewrite orb_false_r, IH.
  destruct (String.eqb (btype b) t); [now rewrite orb_true_r|]. now rewrite orb_false_r.
Qed.
Lemma first_snoc l x : first_occurrences (l ++ [x]) = if smem x l then first_occurrences l else first_occurrences l ++ [x].
Proof.
  induction l as [|y l IH]; [reflexivity|]. cbn [app first_occurrences]. rewrite IH. cbn [smem existsb].
  change (existsb (String.eqb x) l) with (smem x l). destruct (smem x l) eqn:E; [now rewrite orb_true_r|]. rewrite orb_false_r.
  rewrite filter_app. cbn [filter]. destruct (String.eqb x y); cbn; [now rewrite app_nil_r|reflexivity].
Qed.
Lemma first_In t l : In t (first_occurrences l) <-> In t l.
Proof.
  induction l as [|x l IH]; [reflexivity|]. cbn [first_occurrences In]. rewrite filter_In, IH.
  destruct (String.eqb_spec t x) as [->|N]; cbn; intuition.
Qed.
Lemma first_nodup l : NoDup (first_occurrences l).
Proof.
  induction l as [|x l IH]; [constructor|]. cbn. constructor; [|now apply NoDup_filter]. rewrite filter_In. intros [_ H].
  now rewrite String.eqb_refl in H.
Qed.
Lemma dset_map {V} t v (f : string -> V) ks : NoDup ks -> In t ks ->
  dset t v (map (fun x => (x, f x)) ks) = map (fun x => (x, if String.eqb t x then v else f x)) ks.
Proof.
  induction ks as [|k ks IH]; intros N H; [destruct H|]. cbn [map dset]. inversion N as [|? ? Nk Nks]; subst.
  destruct (String.eqb_spec t k) as [->|Ne].
  - f_equal. apply map_ext_in. intros x Hx. destruct (String.eqb_spec k x) as [->|]; [contradiction|reflexivity].
  - f_equal. apply IH; auto. destruct H as [->|H]; [contradiction|auto].
Qed.
Lemma dict_last bs : fold_left (fun d s => dset (fst s) (snd s) d) (map (fun b => (btype b, bdata b)) bs) [] =
  map (fun t => (t, last_block t bs)) (first_occurrences (map btype bs)).
Proof.
  induction bs as [|b bs IH] using rev_ind; [reflexivity|]. rewrite !map_app, fold_left_app, IH. cbn [map fold_left fst snd].
  rewrite first_snoc. destruct (smem (btype b) (map btype bs)) eqn:E.
  - apply smem_In in E. rewrite dset_map; [|apply first_nodup|now apply first_In]. apply map_ext. intros t. f_equal. now rewrite last_block_snoc.
  - assert (Ni : ~ In (btype b) (map btype bs)) by (intros H; apply smem_In in H; congruence).
    rewrite dset_new.
    + rewrite map_app. cbn [map]. f_equal.
      * apply map_ext_in. intros t Ht. apply (proj1 (first_In _ _)) in Ht. rewrite last_block_snoc. destruct (String.eqb_spec (btype b) t) as [<-|]; [contradiction|reflexivity].
      * rewrite last_block_snoc, String.eqb_refl. reflexivity.
    + unfold dkeys. rewrite map_map, map_id. intros H. apply Ni. now apply first_In.
Qed.
Lemma hmf_last m : hdf_mesh m -> 1 <= hm_dim m <= 3 -> length (hm_cells m) <= 10 ->
  Forall (fun b => In (btype b) (dkeys meshio_to_xdmf_type)) (hm_cells m) -> hm_cd m = [] ->
  exists pd, bind (write_hmf m) read_hmf =
    Ok (HMesh (hm_dim m) (hm_points m) (map (fun t => Block t (last_block t (hm_cells m))) (first_occurrences (map btype (hm_cells m)))) pd []) /\
    Permutation pd (hm_pd m).
Proof.
  intros Hm Hd Hl Ht Hc.
  assert (Hk : Forall (fun b => known_type (btype b)) (hm_cells m)) by (eapply Forall_impl; [|apply (hdf_blocks m Hm)]; intros b [H _]; exact H).
  destruct (hmf_file m [] Hm Hd Ht) as (sigma & Ps & E10 & E); [now rewrite Hc|]. rewrite E. cbv zeta. clear E. rewrite (E10 Hl).
  exists (sorted_items (hm_pd m)). split; [|apply sorted_perm]. cbn [sorted_items fold_right mapM bind].
  rewrite store_fold, enumerate_snd, dict_last.
  set (bs := map (fun t => Block t (last_block t (hm_cells m))) (first_occurrences (map btype (hm_cells m)))).
  replace (map (fun t => (t, last_block t (hm_cells m))) (first_occurrences (map btype (hm_cells m)))) with (map (fun b => (btype b, bdata b)) bs)
    by (unfold bs; now rewrite map_map).
  apply make_mesh_ok; auto. unfold bs. apply Forall_map. apply Forall_forall. intros t Htin. cbn [btype]. apply (proj1 (first_In _ _)) in Htin.
  apply in_map_iff in Htin. destruct Htin as (b & <- & Hb). rewrite Forall_forall in Hk. now apply Hk.
Qed.

(** Several blocks with cell data *)
Lemma split_lengths {A} (l : list A) : forall lens blens start, length lens = length blens -> Forall (fun n => 0 < n) blens ->
  start + sum_nat blens = length l -> lens <> [] ->
  map (@length A) (np_split_from start (butlast (cumsum_from start lens)) l) = blens -> butlast lens = butlast blens.
Proof.
  induction lens as [|n lens IH]; intros blens start L P S Ne H; [contradiction|].
  destruct blens as [|b blens]; [discriminate|]. destruct lens as [|n2 lens].
  - destruct blens; [reflexivity|discriminate].
  - destruct blens as [|b2 blens]; [discriminate|].
    cbn [cumsum_from] in H. change (butlast ((start + n) :: (start + n + n2) :: cumsum_from (start + n + n2) lens))
      with ((start + n) :: butlast (cumsum_from (start + n) (n2 :: lens))) in H.
    cbn [np_split_from map] in H. inversion P as [|? ? Pb Pbs]; subst. inversion Pbs as [|? ? Pb2 _]; subst.
    assert (H1 : length (slice start (start + n) l) = b) by congruence.
    assert (H2 : map (@length A) (np_split_from (start + n) (butlast (cumsum_from (start + n) (n2 :: lens))) l) = b2 :: blens) by congruence.
    unfold slice in H1. rewrite firstn_length, skipn_length in H1. cbn [sum_nat] in S.
    assert (En : n = b) by (unfold sum_nat in S; cbn in S; lia). subst n.
    assert (G : butlast (n2 :: lens) = butlast (b2 :: blens)).
    { apply (IH (b2 :: blens) (start + b)); auto; [unfold sum_nat in *; cbn in *; lia|discriminate]. }
    change (butlast (b :: n2 :: lens)) with (b :: butlast (n2 :: lens)). change (butlast (b :: b2 :: blens)) with (b :: butlast (b2 :: blens)).
    now rewrite G.
Qed.
Definition entries (v : hval F) : nat := hd 0 (hv_shape v).
Lemma concat_shape (l : list (hval F)) v : hv_concat l = Ok v -> exists s, hv_shape v = sum_nat (map entries l) :: s.
Proof.
  assert (G : forall A (xs : list (nda A)) a, nd_concat xs = Ok a -> exists s, nd_shape a = sum_nat (map (fun b => hd 0 (nd_shape b)) xs) :: s).
  { intros A xs a H. unfold nd_concat in H. destruct xs as [|x xs]; [discriminate|]. destruct (nd_shape x) as [|n s] eqn:E; [discriminate|].
    match type of H with (if ?b then _ else _) = _ => destruct b; [|discriminate] end.
    exists s. assert (Ea : a = Nda (sum_nat (map (fun b => hd 0 (nd_shape b)) (x :: xs)) :: s) (concat (map nd_flat (x :: xs)))) by congruence. now rewrite Ea. }
  intros H.
  assert (K : (exists xs a, l = map HInts xs /\ v = HInts a /\ nd_concat xs = Ok a) \/ (exists xs a, l = map HReals xs /\ v = HReals a /\ nd_concat xs = Ok a)).
  { assert (KI : forall l xs, mapM (fun v : hval F => match v with HInts a => Ok a | _ => Err TypeError end) l = Ok xs -> l = map HInts xs).
    { clear. induction l as [|[a|a] l IH]; intros xs H; cbn in H; [assert (xs = []) by congruence; now subst| |discriminate].
      destruct (mapM _ l) as [ys|] eqn:E; [|discriminate]. cbn in H. assert (xs = a :: ys) by congruence. subst. cbn. now rewrite <- (IH ys). }
    assert (KR : forall l xs, mapM (fun v : hval F => match v with HReals a => Ok a | _ => Err TypeError end) l = Ok xs -> l = map HReals xs).
    { clear. induction l as [|[a|a] l IH]; intros xs H; cbn in H; [assert (xs = []) by congruence; now subst|discriminate|].
      destruct (mapM _ l) as [ys|] eqn:E; [|discriminate]. cbn in H. assert (xs = a :: ys) by congruence. subst. cbn. now rewrite <- (IH ys). }
    unfold hv_concat in H. destruct l as [|[x|x] l].
    - left. destruct (mapM _ []) as [xs|] eqn:E; [|discriminate]. cbn [bind] in H. destruct (nd_concat xs) as [a|] eqn:Ea; [|discriminate]. cbn [bind] in H.
      exists xs, a. split; [now apply KI|]. split; [congruence|auto].
    - left. destruct (mapM _ (HInts x :: l)) as [xs|] eqn:E; [|discriminate]. cbn [bind] in H. destruct (nd_concat xs) as [a|] eqn:Ea; [|discriminate]. cbn [bind] in H.
      exists xs, a. split; [now apply KI|]. split; [congruence|auto].
    - right. destruct (mapM _ (HReals x :: l)) as [xs|] eqn:E; [|discriminate]. cbn [bind] in H. destruct (nd_concat xs) as [a|] eqn:Ea; [|discriminate]. cbn [bind] in H.
      exists xs, a. split; [now apply KR|]. split; [congruence|auto]. }
  destruct K as [(xs & a & -> & -> & E)|(xs & a & -> & -> & E)]; destruct (G _ _ _ E) as [s Es]; exists s; cbn [hv_shape]; rewrite Es, map_map; reflexivity.
Qed.
Lemma split_shape cs (v : hval F) n s l : hv_shape v = n :: s -> hv_split cs v = Ok l ->
  exists A (x : list A), length x = n /\ map entries l = map (@length A) (np_split cs x).
Proof.
  intros E H. destruct v as [a|a]; cbn [hv_shape] in E; unfold hv_split, nd_split in H; rewrite E in H; cbn [bind] in H.
  - exists (list Z), (rows_of n (size s) (nd_flat a)). split; [apply rows_of_length|].
    match type of H with Ok ?r = Ok l => assert (El : l = r) by congruence end. rewrite El, !map_map. reflexivity.
  - exists (list F), (rows_of n (size s) (nd_flat a)). split; [apply rows_of_length|].
    match type of H with Ok ?r = Ok l => assert (El : l = r) by congruence end. rewrite El, !map_map. reflexivity.
Qed.
Lemma check_blocks_lengths (l : list (hval F)) : forall lens, length l = length lens -> check_blocks (map Some l) lens = Ok tt -> map entries l = lens.
Proof.
  induction l as [|v l IH]; intros [|n lens] L H; try discriminate; [reflexivity|]. cbn [map check_blocks] in H.
  destruct (hv_len v) as [k|] eqn:E; [|discriminate]. cbn [bind] in H. destruct (Nat.eqb_spec k n) as [->|]; [|discriminate].
  cbn [map]. rewrite (IH lens) by (auto; cbn in L; lia). f_equal. unfold entries, hv_len, hv_shape in *. destruct v as [a|a]; unfold nd_len in E; destruct (nd_shape a); cbn; congruence.
Qed.
Lemma hmf_data m out : hdf_mesh m -> none_empty m -> 1 <= hm_dim m <= 3 -> distinct_types m -> length (hm_cells m) <= 10 ->
  Forall (fun b => In (btype b) (dkeys meshio_to_xdmf_type)) (hm_cells m) -> hm_cd m <> [] ->
  bind (write_hmf m) read_hmf = Ok out ->
  Forall (fun b => length (bdata b) = String.length (btype b)) (butlast (hm_cells m)).
Proof.
  intros Hm He Hd Hn Hl Ht Hc H.
  assert (Hk : Forall (fun b => known_type (btype b)) (hm_cells m)) by (eapply Forall_impl; [|apply (hdf_blocks m Hm)]; intros b [Hb _]; exact Hb).
  destruct (raw_of (hm_cd m)) as [raw|e] eqn:R.
  2: { exfalso. destruct (write_hmf m) as [f|] eqn:W; [|discriminate]. clear H. unfold write_hmf in W.
       change (mapM (fun kv => do v <- hv_concat (snd kv); Ok (fst kv, v)) (hm_cd m)) with (raw_of (hm_cd m)) in W. rewrite R in W. cbn [bind] in W.
       repeat (match type of W with bind ?x _ = _ => destruct x; cbn [bind] in W; try discriminate end). }
  destruct (hmf_file m raw Hm Hd Ht R) as (sigma & Ps & E10 & E). rewrite E in H. clear E. cbv zeta in H.
  rewrite (E10 Hl) in H. rewrite store_distinct in H by (rewrite enumerate_snd; exact Hn). rewrite enumerate_snd in H.
  destruct (hm_cells m) as [|b0 bs0] eqn:Ecells; [constructor|]. set (bs := b0 :: bs0) in *.
  assert (Ek : map String.length (dkeys (map (fun b => (btype b, bdata b)) bs)) = map (fun b => String.length (btype b)) bs).
  { unfold dkeys. rewrite !map_map. reflexivity. }
  rewrite Ek in H. clear Ek.
  destruct (sorted_items raw) as [|[k v] raw'] eqn:Er.
  { exfalso. assert (Z0 : raw = []) by (apply Permutation_nil; rewrite <- Er; apply sorted_perm). apply Hc.
    assert (K := raw_keys _ _ R). rewrite Z0 in K. unfold dkeys in K. symmetry in K. now apply map_eq_nil in K. }
  cbn [mapM fst snd] in H. destruct (hv_split _ v) as [l|] eqn:Es; [|discriminate]. cbn [bind] in H.
  destruct (mapM _ raw') as [cd'|]; [|discriminate]. cbn [bind] in H. unfold make_mesh in H.
  rewrite make_blocks_ok in H by auto. cbn [bind fst snd] in H. destruct (check_points _ _); [|discriminate]. cbn [bind map check_cells fst snd] in H.
  rewrite map_length in H. destruct (Nat.eqb_spec (length l) (length (map blen bs))) as [L|]; [|discriminate].
  destruct (check_blocks (map Some l) (map blen bs)) as [[]|] eqn:Cb; [|discriminate]. apply check_blocks_lengths in Cb; [|exact L].
  assert (Hv : exists s, hv_shape v = sum_nat (map blen bs) :: s).
  { assert (Hin : In (k, v) raw) by (eapply Permutation_in; [apply sorted_perm|]; rewrite Er; now left).
    apply mapM_Forall2 in R. destruct (In_nth_error _ _ Hin) as [i Hi]. destruct (Forall2_nth_error_r _ _ _ R i (k, v) Hi) as ([k' d] & Hd' & Ed).
    cbn [fst snd] in Ed. destruct (hv_concat d) as [v'|] eqn:Ev; [|discriminate]. cbn [bind] in Ed. assert (v' = v) by congruence. subst v'.
    destruct (concat_shape d v Ev) as [s Hs]. exists s. rewrite Hs. f_equal.
    assert (G := hdf_cd m Hm). rewrite Forall_forall in G. apply nth_error_In in Hd'. destruct (G _ Hd') as [_ Fd]. cbn [snd] in Fd. rewrite Ecells in Fd. fold bs in Fd.
    f_equal. clear -Fd. induction Fd as [|w b l1 l2 (s & Ew & _) Fd IH]; [reflexivity|]. cbn. rewrite IH. f_equal. unfold entries. now rewrite Ew. }
  destruct Hv as [s Hs]. destruct (split_shape _ _ _ _ _ Hs Es) as (A & x & Hx & Hlen). rewrite Cb in Hlen. unfold np_split, cumsum in Hlen.
  assert (B : butlast (map (fun b => String.length (btype b)) bs) = butlast (map blen bs)).
  { apply (split_lengths x) with (start := 0); auto.
    - now rewrite !map_length.
    - destruct He as (_ & _ & He & _). rewrite Ecells in He. fold bs in He. apply Forall_map. eapply Forall_impl; [|exact He]. intros b [Hb _]. unfold blen. destruct (bdata b); [contradiction|cbn; lia].
    - unfold bs. discriminate. }
  clear -B. clearbody bs. induction bs as [|b bs IH]; [constructor|]. destruct bs as [|b2 bs]; [constructor|].
  change (butlast (b :: b2 :: bs)) with (b :: butlast (b2 :: bs)).
  assert (B1 : String.length (btype b) = blen b) by (cbn in B; congruence).
  assert (B2 : butlast (map (fun b => String.length (btype b)) (b2 :: bs)) = butlast (map blen (b2 :: bs))) by (cbn [map butlast removelast] in *; congruence).
  constructor; [now rewrite B1|auto].
Qed.

(** ** CGNS *)
Lemma stack_columns (pts : list (list F)) : Forall (fun p => length p = 3) pts -> stack3 (column 0 pts) (column 1 pts) (column 2 pts) = Ok pts.
Proof.
  induction 1 as [|p pts Hp H IH]; [reflexivity|]. destruct p as [|x [|y [|z [|w p]]]]; try discriminate.
  change (column 0 ([x; y; z] :: pts)) with (x :: column 0 pts). change (column 1 ([x; y; z] :: pts)) with (y :: column 1 pts).
  change (column 2 ([x; y; z] :: pts)) with (z :: column 2 pts). cbn [stack3]. now rewrite IH.
Qed.
Lemma back (c : cell) : map (fun i => (i - 1)%Z) (map (fun i => (i + 1)%Z) c) = c.
Proof. rewrite map_map. rewrite <- (map_id c) at 2. apply map_ext. intros. lia. Qed.
Lemma backs (l : list cell) : map (map (fun i => (i - 1)%Z)) (map (map (fun i => (i + 1)%Z)) l) = l.
Proof. rewrite map_map. rewrite <- (map_id l) at 2. apply map_ext, back. Qed.
Lemma coordinate_ok m i : i < hm_dim m -> coordinate m i = Ok (Group [] [(" data", Dataset [] (HReals (Nda [length (hm_points m)] (column i (hm_points m)))))]).
Proof. intros H. unfold coordinate. destruct (Nat.leb_spec (hm_dim m) i); [lia|reflexivity]. Qed.
Lemma cgns_roundtrip m b : hdf_mesh m -> hm_dim m = 3 -> tetra_blocks m = [b] -> bdata b <> [] -> Forall (fun c => length c = 4) (bdata b) ->
  bind (write_cgns m) read_cgns = Ok (HMesh 3 (hm_points m) [b] [] []).
Proof.
  intros Hm Hd Hb Hne Hw. unfold write_cgns. rewrite !coordinate_ok by lia. cbn [bind]. rewrite Hb. cbn [map].
  rewrite !create_all by (cbn; try (repeat constructor; intros []); intros ? []; tauto). cbn [bind app].
  assert (Hbt : btype b = "tetra").
  { assert (Hin : In b (tetra_blocks m)) by (rewrite Hb; now left). apply filter_In in Hin. now apply String.eqb_eq. }
  assert (Hp := hdf_points m Hm). rewrite Hd in Hp.
  match goal with |- read_cgns ?f = _ =>
    transitivity (do pts <- stack3 (column 0 (hm_points m)) (column 1 (hm_points m)) (column 2 (hm_points m));
                  do a <- reshape_rest (Z.to_nat (Z.of_nat (length (bdata b)))) (Nda [length (map (fun i => (i + 1)%Z) (concat (bdata b)))] (map (fun i => (i + 1)%Z) (concat (bdata b))));
                  if negb (Nat.eqb (nth 1 (nd_shape a) 0) 4) then Err ReadError else
                  do rows <- to_rows a;
                  make_mesh (F := F) (3, pts) [("tetra", map (map (fun i => i - 1)%Z) rows)] [] []) end.
  { reflexivity. }
  rewrite stack_columns by auto. cbn [bind]. rewrite Nat2Z.id. unfold reshape_rest. cbn [nd_flat].
  assert (L : length (map (fun i => (i + 1)%Z) (concat (bdata b))) = length (bdata b) * 4) by (rewrite map_length; now apply concat_rect_length).
  rewrite L. set (n := length (bdata b)) in *. assert (Hn : n <> 0) by (unfold n; destruct (bdata b); [contradiction|discriminate]).
  destruct (Nat.eqb_spec n 0); [contradiction|].
  assert (D : n * 4 / n = 4) by (rewrite Nat.mul_comm; now apply Nat.div_mul). rewrite D, Nat.eqb_refl. cbn [bind nth nd_shape].
  change (negb (Nat.eqb 4 4)) with false. cbv iota. unfold to_rows. cbn [nd_shape nd_flat bind]. rewrite concat_map.
  assert (R : rows_of n 4 (concat (map (map (fun i => (i + 1)%Z)) (bdata b))) = map (map (fun i => (i + 1)%Z)) (bdata b)).
  { unfold n. rewrite <- (map_length (map (fun i => (i + 1)%Z)) (bdata b)). apply rows_of_concat. apply Forall_map. eapply Forall_impl; [|exact Hw].
    intros c Hc. now rewrite map_length. }
  rewrite R, backs. rewrite <- Hbt. unfold make_mesh.
  change [(btype b, bdata b)] with (map (fun b => (btype b, bdata b)) [b]). rewrite make_blocks_ok.
  - reflexivity.
  - constructor; [|constructor]. assert (Hin : In b (hm_cells m)).
    { assert (H : In b (tetra_blocks m)) by (rewrite Hb; now left). now apply filter_In in H. }
    assert (G := hdf_blocks m Hm). rewrite Forall_forall in G. now apply G.
Qed.
Lemma cgns_several m b1 b2 bs : hm_dim m = 3 -> tetra_blocks m = b1 :: b2 :: bs -> write_cgns m = Err ValueError.
Proof.
  intros Hd Hb. unfold write_cgns. rewrite !coordinate_ok by lia. cbn [bind]. rewrite Hb. cbn [map h5_create_all].
  rewrite create_new; [|reflexivity|cbn; tauto]. cbn [bind app]. rewrite create_old; [reflexivity|reflexivity|cbn; tauto].
Qed.
Lemma cgns_none m : hdf_mesh m -> hm_dim m = 3 -> tetra_blocks m = [] -> bind (write_cgns m) read_cgns = Err KeyError.
Proof.
  intros Hm Hd Hb. assert (Hp := hdf_points m Hm). rewrite Hd in Hp. unfold write_cgns. rewrite !coordinate_ok by lia. cbn [bind]. rewrite Hb. cbn [map h5_create_all bind].
  match goal with |- read_cgns ?f = _ =>
    transitivity (do pts <- stack3 (column 0 (hm_points m)) (column 1 (hm_points m)) (column 2 (hm_points m)); Err (A := hmesh F) KeyError) end.
  { reflexivity. }
  now rewrite stack_columns.
Qed.

(** ** H5M *)
Definition supported (b : block) : bool := dmem (btype b) meshio_to_h5m_type.
Definition h5m_name (t : string) : string := match dget t meshio_to_h5m_type with Some x => x | None => "" end.
Lemma h5m_name_ok t : dmem t meshio_to_h5m_type = true ->
  dget t meshio_to_h5m_type = Some (h5m_name t) /\ dget (h5m_name t) h5m_to_meshio_type = Some t /\ plain (h5m_name t).
Proof.
  intros H. assert (Hin : In t ["line"; "triangle"; "tetra"]).
  { unfold dmem in H. cbn [dget meshio_to_h5m_type] in H.
    destruct (String.eqb_spec t "line"); [subst; cbn; tauto|]. destruct (String.eqb_spec t "triangle"); [subst; cbn; tauto|].
    destruct (String.eqb_spec t "tetra"); [subst; cbn; tauto|discriminate]. }
  cbn in Hin. destruct Hin as [<-|[<-|[<-|[]]]]; repeat split; reflexivity.
Qed.
Fixpoint els (bs : list block) (id : nat) : list (string * h5 F) :=
  match bs with
  | [] => []
  | b :: bs' =>
      if supported b then
        (h5m_name (btype b), Group [] [("connectivity", Dataset [("start_id", AInt (Z.of_nat id))] (HInts (of_rows (map (map (fun i => i + 1)%Z) (bdata b)))))])
        :: els bs' (id + length (bdata b))
      else els bs' id
  end.
Lemma els_keys bs : forall id, dkeys (els bs id) = map (fun b => h5m_name (btype b)) (filter supported bs).
Proof. induction bs as [|b bs IH]; intros id; [reflexivity|]. cbn [els filter]. destruct (supported b); [|apply IH]. cbn. f_equal. apply IH. Qed.
Lemma h5m_name_inj t1 t2 : dmem t1 meshio_to_h5m_type = true -> dmem t2 meshio_to_h5m_type = true -> h5m_name t1 = h5m_name t2 -> t1 = t2.
Proof. intros H1 H2 E. apply h5m_name_ok in H1, H2. destruct H1 as (_ & A & _), H2 as (_ & B & _). rewrite E in A. congruence. Qed.
Lemma els_written bs : forall id its, NoDup (map btype (filter supported bs)) ->
  (forall b, In b (filter supported bs) -> ~ In (h5m_name (btype b)) (dkeys its)) ->
  exists n, h5m_elements bs id (Group [] its) = Ok (Group [] (its ++ els bs id), n).
Proof.
  induction bs as [|b bs IH]; intros id its N D; cbn [h5m_elements els]; [rewrite app_nil_r; eauto|].
  cbn [filter] in N, D. unfold supported in *. destruct (dmem (btype b) meshio_to_h5m_type) eqn:E.
  - destruct (h5m_name_ok _ E) as (E1 & _ & P). rewrite E1. rewrite create_new; [|auto|apply D; now left]. cbn [bind].
    cbn [map] in N. inversion N as [|? ? Nb Nbs]; subst.
    destruct (IH (id + length (bdata b)) (its ++ [(h5m_name (btype b), Group [] [("connectivity", Dataset [("start_id", AInt (Z.of_nat id))] (HInts (of_rows (map (map (fun i => i + 1)%Z) (bdata b)))))])])) as [n En].
    + exact Nbs.
    + intros c Hc Hin. rewrite dkeys_app, in_app_iff in Hin. destruct Hin as [Hin|[Hin|[]]].
      * revert Hin. apply D. now right.
      * cbn [fst] in Hin. apply Nb. apply h5m_name_inj in Hin; [|auto|apply filter_In in Hc; tauto]. rewrite Hin. now apply in_map.
    + exists n. rewrite En. now rewrite <- app_assoc.
  - unfold dmem in E. destruct (dget (btype b) meshio_to_h5m_type); [discriminate|]. apply IH; auto.
Qed.
Lemma els_read bs : forall id, Forall (fun b => exists w, Forall (fun c => length c = w) (bdata b)) bs ->
  Forall2 (fun kv b => h5m_block kv = Ok (btype b, bdata b)) (els bs id) (filter supported bs).
Proof.
  induction bs as [|b bs IH]; intros id H; [constructor|]. cbn [els filter]. inversion H as [|? ? [w Hw] Hbs]; subst.
  destruct (supported b) eqn:E; [|now apply IH]. constructor; [|now apply IH].
  unfold h5m_block. cbn [fst snd]. destruct (h5m_name_ok _ E) as (_ & E2 & _). rewrite E2. cbn [of_option bind]. rewrite get_here. cbn [bind h5_value int_rows].
  rewrite (to_of_rows _ w). 2: { apply Forall_map. eapply Forall_impl; [|exact Hw]. intros c Hc. now rewrite map_length. }
  cbn [bind]. now rewrite backs.
Qed.
Lemma mapM_pairs (l : list (string * h5 F)) bs : Forall2 (fun kv b => h5m_block kv = Ok (btype b, bdata b)) l bs ->
  mapM h5m_block l = Ok (map (fun b => (btype b, bdata b)) bs).
Proof. induction 1 as [|x b l bs E H IH]; [reflexivity|]. cbn [mapM map]. rewrite E. cbn [bind]. now rewrite IH. Qed.

(** The point data that are stored *)
Lemma h5m_roundtrip ids m : hdf_mesh m -> NoDup (map btype (filter supported (hm_cells m))) -> hm_cd m = [] ->
  Forall (fun kv => length (hv_shape (snd kv)) <= 2) (hm_pd m) ->
  exists bs pd, bind (write_h5m ids m) read_h5m = Ok (HMesh (hm_dim m) (hm_points m) bs pd []) /\
    Permutation bs (filter supported (hm_cells m)) /\ Permutation pd (with_ids ids m).
Proof.
  intros Hm Hn Hc Hs. unfold write_h5m. cbv zeta.
  assert (Et : h5m_tags (length (hm_points m)) ids (hm_pd m) = with_ids ids m).
  { unfold h5m_tags, with_ids, ints. rewrite map_length, seq_length. reflexivity. }
  rewrite Et.
  assert (Ha : Forall (fun kv => plain (fst kv) /\ array_of (length (hm_points m)) (snd kv) /\ length (hv_shape (snd kv)) <= 2) (with_ids ids m)).
  { assert (H0 : Forall (fun kv => plain (fst kv) /\ array_of (length (hm_points m)) (snd kv) /\ length (hv_shape (snd kv)) <= 2) (hm_pd m)).
    { assert (G := hdf_pd m Hm). rewrite Forall_forall in *. intros kv Hin. destruct (G kv Hin) as [H1 H2]. split; [now apply good_plain|]. split; auto. }
    unfold with_ids. destruct (ids && _); [|exact H0]. apply Forall_app. split; [exact H0|]. constructor; [|constructor]. cbn [fst snd]. split; [reflexivity|].
    split; [|cbn; lia]. exists []. cbn [hv_shape count nd_shape nd_flat]. split; [reflexivity|]. rewrite map_length, seq_length. cbn. lia. }
  assert (Nt : NoDup (dkeys (with_ids ids m))).
  { unfold with_ids. destruct ids; cbn [andb]; [|apply (hdf_pd_names m Hm)]. destruct (dmem "GLOBAL_ID" (hm_pd m)) eqn:E; cbn [negb]; [apply (hdf_pd_names m Hm)|].
    rewrite dkeys_app. unfold dmem in E. destruct (dget "GLOBAL_ID" (hm_pd m)) eqn:E2; [discriminate|]. apply dget_None in E2.
    apply (Permutation_NoDup (Permutation_cons_append (dkeys (hm_pd m)) "GLOBAL_ID")). constructor; [exact E2|apply (hdf_pd_names m Hm)]. }
  assert (Pt : Forall plain (dkeys (with_ids ids m))) by (unfold dkeys; apply Forall_map; eapply Forall_impl; [|exact Ha]; intros kv (H & _ & _); exact H).
  assert (M : mapM h5m_tag (with_ids ids m) = Ok (with_ids ids m)).
  { rewrite <- (map_id (with_ids ids m)) at 2. apply mapM_ok_in. intros [k v] Hin. rewrite Forall_forall in Ha. destruct (Ha _ Hin) as (_ & (s & Es & _) & L).
    unfold h5m_tag. cbn [snd] in *. rewrite Es in *. destruct s as [|a [|b s]]; cbn in L; [reflexivity|reflexivity|lia]. }
  rewrite M. cbn [bind]. rewrite datasets_written by auto. cbn [bind].
  rewrite create_all.
  2: { unfold dkeys. rewrite map_map. exact Pt. }
  2: { unfold dkeys. rewrite map_map. exact Nt. }
  2: { intros n _ []. }
  cbn [bind]. destruct (els_written (hm_cells m) (1 + length (hm_points m)) [] Hn) as [k Ek]; [intros ? _ []|]. rewrite Ek. cbn [bind]. rewrite Hc. cbn [existsb].
  cbn [fst snd app bind].
  destruct (Permutation_Forall2 (Permutation_sym (sorted_perm (els (hm_cells m) (1 + length (hm_points m))))) (els_read (hm_cells m) _ ltac:(eapply Forall_impl; [|apply (hdf_blocks m Hm)]; intros b [_ H]; exact H))) as (bs & Pb & Fb).
  exists bs, (sorted_items (with_ids ids m)). split; [|split; [now symmetry|apply sorted_perm]].
  unfold read_h5m. rewrite get_here. cbn [bind]. rewrite get_here. cbn [bind]. rewrite get_here. cbn [bind h5_value].
  rewrite real_rows_points by apply (hdf_points m Hm). cbn [bind].
  assert (V : (if h5_mem (Group [] (("coordinates", Dataset [("start_id", AInt 1)] (point_array m)) :: match with_ids ids m with [] => [] | _ => [("tags", Group [] (datasets (with_ids ids m)))] end)) "tags"
               then bind (h5_get (Group [] (("coordinates", Dataset [("start_id", AInt 1)] (point_array m)) :: match with_ids ids m with [] => [] | _ => [("tags", Group [] (datasets (with_ids ids m)))] end)) "tags") values else Ok [])
               = Ok (sorted_items (with_ids ids m))).
  { destruct (with_ids ids m) as [|x l]; [reflexivity|]. unfold h5_mem, dmem. cbn [dget]. change (String.eqb "tags" "coordinates") with false.
    change (String.eqb "tags" "tags") with true. cbv iota. rewrite get_next by discriminate. rewrite get_here. cbn [bind]. apply values_datasets. }
  rewrite V. cbn [bind]. rewrite get_next by discriminate. rewrite get_next by discriminate. rewrite get_here. cbn [bind h5_items].
  rewrite (mapM_pairs _ bs Fb). cbn [bind]. unfold make_mesh. rewrite make_blocks_ok.
  2: { eapply Permutation_Forall; [exact Pb|]. apply Forall_forall. intros b Hb. apply filter_In in Hb. assert (G := hdf_blocks m Hm). rewrite Forall_forall in G. now apply G. }
  cbn [bind fst snd]. rewrite check_points_ok; [reflexivity|]. eapply Permutation_Forall; [symmetry; apply sorted_perm|]. eapply Forall_impl; [|exact Ha]. intros kv (_ & H & _). exact H.
Qed.
Lemma h5m_cell_data ids m kv : In kv (hm_cd m) -> snd kv <> [] -> exists e, write_h5m ids m = Err e.
Proof.
  intros Hin Hne. unfold write_h5m. cbv zeta.
  assert (E : existsb (fun kv : string * list (hval F) => negb (Nat.eqb (length (snd kv)) 0)) (hm_cd m) = true).
  { apply existsb_exists. exists kv. split; [auto|]. destruct (snd kv); [contradiction|reflexivity]. }
  rewrite E. repeat (match goal with |- exists e, bind ?x _ = _ => destruct x; cbn [bind]; [|eauto] end). eauto.
Qed.
Lemma els_distinct bs : forall id a (its : list (string * h5 F)) r, h5m_elements bs id (Group a its) = Ok r ->
  NoDup (map btype (filter supported bs)) /\ (forall b, In b (filter supported bs) -> ~ In (h5m_name (btype b)) (dkeys its)).
Proof.
  induction bs as [|b bs IH]; intros id a its r H; cbn [h5m_elements filter] in *; [split; [constructor|intros b []]|].
  destruct (supported b) eqn:E; unfold supported in E.
  - destruct (h5m_name_ok _ E) as (E1 & _ & P). rewrite E1 in H. destruct (in_dec string_dec (h5m_name (btype b)) (dkeys its)) as [Hin|Hin].
    + rewrite create_old in H by auto. discriminate H.
    + rewrite create_new in H by auto. cbn [bind] in H. destruct (IH _ _ _ _ H) as [N D]. split.
      * cbn [map]. constructor; [|exact N]. intros Hb. apply in_map_iff in Hb. destruct Hb as (c & Ec & Hc). apply (D c Hc).
        rewrite dkeys_app, in_app_iff. right. left. cbn [fst]. now rewrite Ec.
      * intros c [<-|Hc] Hk; [contradiction|]. apply (D c Hc). rewrite dkeys_app, in_app_iff. now left.
  - unfold dmem in E. destruct (dget (btype b) meshio_to_h5m_type); [discriminate|]. eapply IH; eauto.
Qed.
Lemma h5m_twice ids m : ~ NoDup (map btype (filter supported (hm_cells m))) -> exists e, write_h5m ids m = Err e.
Proof.
  intros H. unfold write_h5m. cbv zeta.
  do 3 (match goal with |- exists e, bind ?x _ = _ => destruct x; cbn [bind]; [|eauto] end).
  match goal with |- exists e, bind ?x _ = _ => destruct x eqn:E; cbn [bind]; [|eauto] end.
  apply els_distinct in E. tauto.
Qed.
Lemma hmf_unsupported m : ~ Forall (fun b => In (btype b) (dkeys meshio_to_xdmf_type)) (hm_cells m) -> exists e, write_hmf m = Err e.
Proof.
  intros H. unfold write_hmf. match goal with |- exists e, bind ?x _ = _ => destruct x; cbn [bind]; [|eauto] end.
  match goal with |- exists e, bind ?x _ = _ => destruct x as [l|] eqn:E; cbn [bind]; [|eauto] end. exfalso. apply H.
  apply mapM_Forall2 in E. apply Forall_forall. intros b Hb. apply In_nth_error in Hb. destruct Hb as [i Hi].
  assert (Hk : nth_error (enumerate (hm_cells m)) i = Some (i, b)) by (apply nth_error_enumerate; eauto).
  destruct (Forall2_nth_error_l _ _ _ E _ _ Hk) as (y & _ & Hy). unfold hmf_topology in Hy. cbn [snd] in Hy.
  destruct (dget (btype b) meshio_to_xdmf_type) as [ts|] eqn:D; [|discriminate]. apply dget_In in D. unfold dkeys. apply in_map_iff. now exists (btype b, ts).
Qed.
End Hdf.
