(** XDMF meshes and time series. *)
From Verif.Lib Require Import Base Facts Facts2 Text TextFacts Lines LinesFacts Runs Bytes BytesFacts File.
From Verif.Model Require Import Core Xdmf.
From Verif.Spec Require Import Core Blocks Xdmf.
From Verif.Proofs Require Import Core CoreMisc Blocks XdmfMixed Xdmf.
From Coq Require Import ZifyBool ZifyNat.

Lemma foldM_app {A B} (f : A -> B -> result A) l1 l2 : forall a, foldM f a (l1 ++ l2) = bind (foldM f a l1) (fun a' => foldM f a' l2).
Proof. induction l1 as [|x l1 IH]; intros a; cbn; [reflexivity|]. destruct (f a x); cbn; [apply IH|reflexivity]. Qed.

Lemma Forall2_impl {A B} (P Q : A -> B -> Prop) l1 l2 : (forall a b, P a b -> Q a b) -> Forall2 P l1 l2 -> Forall2 Q l1 l2.
Proof. intros H. induction 1; constructor; auto. Qed.

Lemma xdmf_cells_all bs : all_cells (xdmf_cells bs) = all_cells bs.
Proof. destruct bs as [|b [|b2 bs]]; try reflexivity. apply regroup_cells. Qed.
Lemma xdmf_cells_ne ts bs : xdmf_cells_ok ts bs -> bs <> [] -> xdmf_cells bs <> [].
Proof.
  destruct bs as [|b [|b2 bs]]; [congruence|discriminate|]. intros (H & _) _ E. apply H.
  rewrite <- xdmf_cells_all, E. reflexivity.
Qed.

Section File.
Context {F : Type} (N : xnums F) (format base h5name dir : string).
Hypothesis Hbase : lstrip base = base.
Hypothesis Hh5 : file_name h5name.

Definition topo_reqs (topo : option (string * list nat * xarr F)) : list (request (F := F)) :=
  match topo with None => [] | Some (t, dims, a) => [(Topology t, (dims, a))] end.

Lemma inv_init : inv (F := F) base (Store 0 [] []).
Proof. intros k _. split; reflexivity. Qed.

Lemma pd_good ts center pd : pd_ok N ts format pd -> Forall (good_request N ts format) (map (attr_req center) pd).
Proof. intros [_ H]. apply Forall_map. eapply Forall_impl; [|exact H]. cbn. intros na (H1 & H2 & _). repeat split; auto; apply H1. Qed.
Lemma cd_good ts bs cd : cd_ok N ts format bs cd ->
  Forall (good_request N ts format) (map (attr_req "Cell") (map (fun nc => (fst nc, cd_whole (snd nc))) cd)) /\
  Forall (fun na => attribute_ok (xa_tail (snd na))) (map (fun nc => (fst nc, cd_whole (snd nc))) cd).
Proof.
  intros (_ & _ & H). split; apply Forall_map; [apply Forall_map|]; (eapply Forall_impl; [|exact H]); cbn; intros nc (H1 & H2 & H3 & H4); [|exact H4].
  repeat split; auto; apply H2.
Qed.

(** Reading geometry and topology. *)
Lemma fold_mesh ts st gt pts topo bs els : smem gt ["XY"; "XYZ"] = true ->
  match topo with
  | None => bs = []
  | Some (t, dims, a) => good_request N ts format (Topology t, (dims, a)) /\
      forall rd d, rd d = Ok a -> read_topology rd [] t d = Ok (xdmf_cells bs)
  end ->
  Forall2 (answers N ts h5name dir st) ([(Geometry gt, (xa_shape pts, pts))] ++ topo_reqs topo) els ->
  foldM (read_element (read_st N ts h5name dir st)) (XRead None [] [] []) els = Ok (XRead (Some pts) (xdmf_cells bs) [] []) /\
  Forall (fun e => match e with Topology _ _ | Geometry _ _ => True | _ => False end) els.
Proof.
  intros Hg Ht H. cbn [app] in H. inversion H as [|? ? ? ? Hh H']; subst. destruct Hh as (d & -> & Hd). cbn [fst snd] in *.
  cbn [foldM read_element]. rewrite Hg. cbn [negb]. rewrite (Hd st (extends_refl st)). cbn [bind r_cells r_pd r_raw].
  destruct topo as [[[t dims] a]|]; cbn [topo_reqs] in H'.
  - inversion H' as [|? ? ? ? Hh2 H2]; subst. inversion H2; subst. destruct Hh2 as (d2 & -> & Hd2). cbn [fst snd] in *.
    cbn [foldM read_element r_cells r_points r_pd r_raw]. rewrite (proj2 Ht _ _ (Hd2 st (extends_refl st))). split; [reflexivity|]. repeat constructor.
  - inversion H'; subst. split; [reflexivity|]. repeat constructor.
Qed.
Lemma geom_ok ts tail : tail = [2] \/ tail = [3] -> exists gt, geometry_type ts tail = Ok gt /\ smem gt ["XY"; "XYZ"] = true.
Proof. intros [-> | ->]; eexists; split; reflexivity. Qed.

Theorem xdmf_roundtrip (m : xmesh (F := F)) : xmesh_ok N format m ->
  exists grid st, write_xdmf N format base h5name m = Ok (grid, st) /\
    read_xdmf N (st_bins st) (xdmf_h5_files dir h5name st) dir grid =
    Ok (Some (xm_points m), xdmf_cells (xm_cells m), xm_pd m, recut (xdmf_cells (xm_cells m)) (xm_cd m)).
Proof.
  intros (Hfm & Htail & Hpa & Hpf & Hc & Hct & Hpd & Hcd).
  destruct (geom_ok false _ Htail) as (gt & Eg & Hgt).
  destruct (topology_ok N false format (xm_ctype m) (xm_cells m) Hfm Hc Hct) as (topo & Et & Htopo).
  destruct (cd_good false _ _ Hcd) as [Hcg Hca].
  set (raw := map (fun nc => (fst nc, cd_whole (snd nc))) (xm_cd m)) in *.
  set (reqs := ([(Geometry gt, (xa_shape (xm_points m), xm_points m))] ++ topo_reqs topo) ++ map (attr_req "Node") (xm_pd m) ++ map (attr_req "Cell") raw).
  destruct (put_all_ok N false format base h5name dir Hbase Hh5 reqs (Store 0 [] []) inv_init) as (els & st & Ep & _ & _ & Hans).
  { unfold reqs. apply Forall_app; split; apply Forall_app; split.
    - constructor; [|constructor]. now repeat split; try apply Hpa.
    - destruct topo as [[[t dims] a]|]; [|constructor]. constructor; [apply Htopo|constructor].
    - now apply pd_good.
    - exact Hcg. }
  exists els, st. split.
  - unfold write_xdmf. assert (Es : smem format ["XML"; "Binary"; "HDF"] = true).
    { unfold smem. apply existsb_exists. exists format. split; [exact Hfm|apply String.eqb_refl]. }
    rewrite Es. cbn [negb]. rewrite Eg. cbn [bind]. rewrite Et. cbn [bind]. rewrite attr_reqs.
    2:{ destruct Hpd as [_ Hpd]. eapply Forall_impl; [|exact Hpd]. cbn. tauto. }
    cbn [bind]. rewrite (raw_arrays_ok N false format _ _ Hcd). cbn [bind]. fold raw. rewrite attr_reqs by exact Hca. cbn [bind].
    rewrite <- Ep. unfold reqs. rewrite <- !app_assoc. reflexivity.
  - unfold read_xdmf, xdmf_h5_files. change (fun d => read_item N false (st_bins st) [((dir ++ "/" ++ h5name)%string, st_h5 st)] dir d) with (read_st N false h5name dir st).
    change (read_item N false (st_bins st) [((dir ++ "/" ++ h5name)%string, st_h5 st)] dir) with (read_st N false h5name dir st).
    unfold reqs in Hans. apply Forall2_app_inv_l in Hans. destruct Hans as (e1 & e23 & H1 & H23 & ->).
    apply Forall2_app_inv_l in H23. destruct H23 as (e2 & e3 & H2 & H3 & ->).
    rewrite foldM_app. destruct (fold_mesh false st gt (xm_points m) topo (xm_cells m) e1 Hgt Htopo H1) as [-> _]. cbn [bind]. rewrite foldM_app.
    rewrite (fold_nodes N false h5name dir st _ _ H2). 2:{ cbn [r_pd app]. apply Hpd. }
    cbn [bind r_points r_cells r_pd r_raw app]. rewrite (fold_cells N false h5name dir st _ _ H3). 2:{ cbn [r_raw app]. exact (cd_nodup N false format _ _ Hcd). }
    cbn [bind r_points r_cells r_pd r_raw app]. unfold raw. rewrite (recut_ok N false format (xm_cells m)); auto.
    + now apply xdmf_cells_ne with (ts := false).
    + now rewrite xdmf_cells_all.
Qed.

(** ** Time series *)
Notation read_ts st := (read_st N true h5name dir st).
Definition step_stored (bs : list block) (st : store F) (s : step (F := F)) (grid : list (xel F)) : Prop :=
  exists els, grid = [Include; Time (x_str N (sp_time s))] ++ els /\
    Forall2 (answers N true h5name dir st) (map (attr_req "Node") (sp_pd s) ++ map (attr_req "Cell") (map (fun nc => (fst nc, cd_whole (snd nc))) (sp_cd s))) els.

Lemma step_stored_extends bs st st' s g : extends st st' -> step_stored bs st s g -> step_stored bs st' s g.
Proof.
  intros He (els & -> & H). exists els. split; [reflexivity|]. eapply Forall2_impl; [|exact H]. intros a b. now apply answers_extends.
Qed.

Lemma write_step_ok bs s w mesh : w_mesh w = Some mesh -> inv base (w_store w) -> step_ok N format bs s ->
  exists g st', ts_write_data N format base h5name s w = (Tsw (Some mesh) (w_steps w ++ [g]) st', Ok tt) /\
    inv base st' /\ extends (w_store w) st' /\ step_stored bs st' s g.
Proof.
  intros Hm Hi (Ht & Hpd & Hcd). destruct (cd_good true _ _ Hcd) as [Hcg Hca].
  set (raw := map (fun nc => (fst nc, cd_whole (snd nc))) (sp_cd s)) in *.
  destruct (put_all_ok N true format base h5name dir Hbase Hh5 (map (attr_req "Node") (sp_pd s) ++ map (attr_req "Cell") raw) (w_store w) Hi) as (els & st & Ep & Hi' & Hx & Hans).
  { apply Forall_app. split; [now apply pd_good|exact Hcg]. }
  exists ([Include; Time (x_str N (sp_time s))] ++ els), st. split.
  - unfold ts_write_data. rewrite Hm. rewrite attr_reqs.
    2:{ destruct Hpd as [_ Hpd]. eapply Forall_impl; [|exact Hpd]. cbn. tauto. }
    cbn [bind]. rewrite (raw_arrays_ok N true format _ _ Hcd). cbn [bind]. fold raw. rewrite attr_reqs by exact Hca. cbn [bind]. rewrite Ep. reflexivity.
  - split; [exact Hi'|]. split; [exact Hx|]. exists els. split; [reflexivity|exact Hans].
Qed.

Lemma write_steps_ok bs steps : forall w mesh, w_mesh w = Some mesh -> inv base (w_store w) -> Forall (step_ok N format bs) steps ->
  exists gs st', write_steps N format base h5name steps w = (Tsw (Some mesh) (w_steps w ++ gs) st', repeat (Ok tt) (length steps)) /\
    extends (w_store w) st' /\ Forall2 (step_stored bs st') steps gs.
Proof.
  induction steps as [|s steps IH]; intros w mesh Hm Hi H.
  - exists [], (w_store w). cbn. rewrite app_nil_r. split; [destruct w; cbn in *; now subst|]. split; [apply extends_refl|constructor].
  - inversion H as [|? ? Hs H']; subst. destruct (write_step_ok bs s w mesh Hm Hi Hs) as (g & st1 & E & Hi1 & Hx1 & Hst).
    destruct (IH (Tsw (Some mesh) (w_steps w ++ [g]) st1) mesh eq_refl Hi1 H') as (gs & st2 & E2 & Hx2 & Hst2).
    cbn [w_steps w_store] in *. exists (g :: gs), st2. cbn [write_steps length repeat]. rewrite E. cbn [fst snd]. rewrite E2. cbn [fst snd].
    rewrite <- app_assoc. split; [reflexivity|]. split; [eapply extends_trans; eauto|]. constructor; [|exact Hst2].
    eapply step_stored_extends; eauto.
Qed.

Lemma ts_fold_attrs st els reqs : Forall2 (answers N true h5name dir st) reqs els -> Forall (fun rq => exists n c, fst rq = Attribute n c) reqs ->
  forall t s, foldM (ts_read_element N (read_ts st)) (t, s) els = (do s' <- foldM (read_element (read_ts st)) s els; Ok (t, s')).
Proof.
  intros H Ha. induction H as [|rq e reqs els (d & -> & _) _ IH]; intros t s; [reflexivity|].
  inversion Ha as [|? ? (n & c & En) Ha']; subst. rewrite En. cbn [foldM ts_read_element fst snd].
  destruct (read_element (read_ts st) s (Attribute n c d)); cbn [bind fst]; [|reflexivity]. now rewrite IH.
Qed.

Theorem time_series (points : xarr F) ctype cells steps :
  In format ["XML"; "Binary"; "HDF"] ->
  (xa_tail points = [2] \/ xa_tail points = [3]) -> arr_ok N points -> format_ok true format points ->
  xdmf_cells_ok true cells -> cell_dtype_ok N true format ctype cells ->
  Forall (step_ok N format cells) steps ->
  exists w0 w, ts_write_mesh N format base h5name points ctype cells ts_init = Ok w0 /\
    write_steps N format base h5name steps w0 = (w, repeat (Ok tt) (length steps)) /\
    length (w_steps w) = length steps /\
    ts_read_mesh N (st_bins (w_store w)) (ts_h5_files dir h5name (w_store w)) dir w = Ok (Some points, xdmf_cells cells) /\
    forall k s, nth_error steps k = Some s ->
      ts_read_data N (st_bins (w_store w)) (ts_h5_files dir h5name (w_store w)) dir (xdmf_cells cells) w k =
      Ok (sp_time s, sp_pd s, recut (xdmf_cells cells) (sp_cd s)).
Proof.
  intros Hfm Htail Hpa Hpf Hc Hct Hsteps.
  destruct (geom_ok true _ Htail) as (gt & Eg & Hgt).
  destruct (topology_ok N true format ctype cells Hfm Hc Hct) as (topo & Et & Htopo).
  destruct (put_all_ok N true format base h5name dir Hbase Hh5 ([(Geometry gt, (xa_shape points, points))] ++ topo_reqs topo) (Store 0 [] []) inv_init) as (els & st & Ep & Hi & _ & Hans).
  { apply Forall_app; split.
    - constructor; [|constructor]. now repeat split; try apply Hpa.
    - destruct topo as [[[t dims] a]|]; [|constructor]. constructor; [apply Htopo|constructor]. }
  destruct (write_steps_ok cells steps (Tsw (Some els) [] st) els eq_refl Hi Hsteps) as (gs & st' & Ew & Hx & Hst). cbn [w_steps w_store app] in *.
  exists (Tsw (Some els) [] st), (Tsw (Some els) gs st'). split; [|split; [exact Ew|split; [|split]]].
  - unfold ts_write_mesh, ts_init. cbn [w_store w_steps]. rewrite Eg. cbn [bind]. rewrite Et. cbn [bind]. match goal with |- bind ?x _ = _ => replace x with (Ok (els, st)) by (symmetry; exact Ep) end. reflexivity.
  - cbn. symmetry. eapply Forall2_length; eauto.
  - unfold ts_read_mesh, ts_h5_files. cbn [w_mesh w_store of_option bind].
    change (read_item N true (st_bins st') [((dir ++ "/" ++ h5name)%string, st_h5 st')] dir) with (read_ts st').
    assert (Hans' : Forall2 (answers N true h5name dir st') ([(Geometry gt, (xa_shape points, points))] ++ topo_reqs topo) els).
    { eapply Forall2_impl; [|exact Hans]. intros a b. now apply answers_extends. }
    destruct (fold_mesh true st' gt points topo cells els Hgt Htopo Hans') as [E Hk].
    assert (Ef : forall s, foldM (fun s e => match e with Topology _ _ | Geometry _ _ => read_element (read_ts st') s e | _ => Ok s end) s els =
                 foldM (read_element (read_ts st')) s els).
    { clear - Hk. induction Hk as [|e els He _ IH]; intros s; [reflexivity|]. destruct e; try destruct He; cbn [foldM];
        (destruct (read_element (read_ts st') s _); cbn [bind]; [apply IH|reflexivity]). }
    rewrite Ef, E. reflexivity.
  - intros k s Hk. unfold ts_read_data, ts_h5_files. cbn [w_steps w_store].
    destruct (Forall2_nth_error_l _ _ _ Hst _ _ Hk) as (g & Hg & (els2 & -> & Hel)). rewrite Hg. cbn [of_option bind].
    change (read_item N true (st_bins st') [((dir ++ "/" ++ h5name)%string, st_h5 st')] dir) with (read_ts st').
    rewrite Forall_forall in Hsteps. destruct (Hsteps s (nth_error_In _ _ Hk)) as (Ht & Hpd & Hcd).
    cbn [app foldM ts_read_element bind]. rewrite Ht. cbn [of_option bind snd].
    rewrite (ts_fold_attrs st' els2 _ Hel).
    2:{ apply Forall_app; split; apply Forall_map, Forall_forall; intros na _; eexists _, _; reflexivity. }
    apply Forall2_app_inv_l in Hel. destruct Hel as (e2 & e3 & H2 & H3 & ->). rewrite foldM_app.
    rewrite (fold_nodes N true h5name dir st' _ _ H2). 2:{ cbn [r_pd app]. apply Hpd. }
    cbn [bind r_points r_cells r_pd r_raw app]. rewrite (fold_cells N true h5name dir st' _ _ H3). 2:{ cbn [r_raw app]. exact (cd_nodup N true format _ _ Hcd). }
    cbn [bind r_points r_cells r_pd r_raw app fst snd of_option]. rewrite (recut_ok N true format cells); auto.
    + now apply xdmf_cells_ne with (ts := true).
    + now rewrite xdmf_cells_all.
Qed.
End File.

Lemma mixed_entry_menc tc : mixed_cell tc -> mixed_entry tc = menc tc.
Proof.
  destruct tc as [t c]. unfold mixed_cell, mixed_types. cbn [fst snd In]. intros H.
  repeat (destruct H as [H|H]; [injection H as <- _; reflexivity|]). destruct H.
Qed.
Theorem mixed_stream L : L <> [] -> Forall mixed_cell L -> translate_mixed_cells (flat_map mixed_entry L) = Ok (regroup L).
Proof.
  intros HN HL. rewrite <- (translate_mixed_ok L HN HL). f_equal. clear HN. induction HL as [|tc L H _ IH]; cbn [flat_map]; [reflexivity|].
  now rewrite IH, mixed_entry_menc.
Qed.
Theorem mixed_written {F} (ctype : string) bs : 1 < length bs -> xdmf_cells_ok false bs -> ctype <> "uint64" ->
  topology (F := F) false ctype bs = Ok (Some ("Mixed", [length (flat_map mixed_entry (all_cells bs))], int_vector "int64" (flat_map mixed_entry (all_cells bs)))).
Proof.
  destruct bs as [|b [|b2 bs]]; cbn [length]; try lia. intros _ Hc Hu. set (B := b :: b2 :: bs) in *.
  assert (Hc' : all_cells B <> [] /\ Forall mixed_cell (all_cells B) /\ Forall (fun b => btype b <> bad_type false /\ In (btype b) (map fst mixed_types)) B) by exact Hc.
  destruct Hc' as (_ & Hm & Hb). unfold topology. unfold B at 1. fold B. apply String.eqb_neq in Hu. rewrite Hu.
  destruct (mixed_data_ok B Hb) as (l & -> & Ecat). cbn [bind]. rewrite Ecat, (mixed_dim_ok B Hm Hb).
  assert (E : flat_map mixed_entry (all_cells B) = flat_map menc (all_cells B)).
  { clear - Hm. induction Hm as [|tc L H _ IH]; cbn [flat_map]; [reflexivity|]. now rewrite IH, mixed_entry_menc. }
  now rewrite E.
Qed.
