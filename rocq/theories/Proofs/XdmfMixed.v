(** Decoding of mixed XDMF topologies. *)
From Verif.Lib Require Import Base Facts Facts2 Runs.
From Verif.Model Require Import Core Xdmf.
From Verif.Spec Require Import Core Blocks Xdmf.
From Verif.Proofs Require Import Core Blocks RunsBlocks Vtk Gmsh22.
From Coq Require Import ZifyBool ZifyNat.

(** Blocks cut along the runs of keys are the regrouped cells, when key, name and width determine
    one another. *)
Lemma runs_regroup_gen (key : string -> Z) (nm : Z -> string) (w : Z -> nat) (L : list (string * cell)) :
  (forall tc, In tc L -> nm (key (fst tc)) = fst tc /\ length (snd tc) = w (key (fst tc))) ->
  blocks_of nm (runs Z.eqb (map (fun tc => key (fst tc)) L)) (map snd L) = regroup L.
Proof.
  intros HL. set (codes := map (fun tc => key (fst tc)) L). set (rs := runs Z.eqb codes).
  assert (Hlen : length (map snd L) = sum_nat (map snd rs)) by (unfold rs, codes; rewrite runs_total, !map_length; reflexivity).
  assert (Hex : expand rs = codes) by (apply expand_runs, Zeqb_spec').
  assert (Hfst : forall a, In a (map fst rs) -> In a codes).
  { intros a Ha. rewrite <- Hex. unfold expand. apply in_flat_map. apply in_map_iff in Ha.
    destruct Ha as ([a' n] & <- & Hin). exists (a', n). split; auto. cbn.
    assert (0 < n) by (eapply runs_pos; eauto). destruct n; [lia|]. now left. }
  rewrite (grouped_regroup (blocks_of nm rs (map snd L))).
  - f_equal. rewrite blocks_of_cells by auto. rewrite Hex. unfold codes. rewrite map_map.
    rewrite <- (pair_combine L) at 3. f_equal. apply map_ext_in. intros tc Hin. now apply HL.
  - apply (blocks_of_grouped nm w); auto.
    + intros a n. apply runs_pos.
    + apply runs_alternating, Zeqb_spec'.
    + intros a b Ha Hb E _. apply Hfst in Ha. apply Hfst in Hb. unfold codes in Ha, Hb.
      apply in_map_iff in Ha. destruct Ha as (t1 & <- & H1). apply in_map_iff in Hb. destruct Hb as (t2 & <- & H2).
      rewrite (proj1 (HL t1 H1)), (proj1 (HL t2 H2)) in E. now rewrite E.
    + rewrite Hex. unfold codes. clear - HL. induction L as [|tc L IH]; constructor.
      * apply HL. now left.
      * apply IH. intros. apply HL. now right.
Qed.

Definition mcode (t : string) : Z := match dget t meshio_type_to_xdmf_index with Some c => c | None => 0%Z end.
Definition mname (c : Z) : string := match zget c xdmf_idx_to_meshio_type with Some t => t | None => "" end.
Definition mwidth (c : Z) : nat := match zget c xdmf_idx_to_num_nodes with Some n => n | None => 0 end.
Definition mhead (c : Z) : list Z := if Z.eqb c 2 then [2; 2]%Z else [c].
Definition menc (tc : string * cell) : list Z := mhead (mcode (fst tc)) ++ snd tc.

Lemma mixed_facts tc : mixed_cell tc ->
  dget (fst tc) meshio_type_to_xdmf_index = Some (mcode (fst tc)) /\
  zget (mcode (fst tc)) xdmf_idx_to_meshio_type = Some (fst tc) /\
  zget (mcode (fst tc)) xdmf_idx_to_num_nodes = Some (length (snd tc)) /\
  (Z.eqb (mcode (fst tc)) 2 = String.eqb (fst tc) "line").
Proof.
  unfold mixed_cell. destruct tc as [t c]. cbn [fst snd]. generalize (length c). intros n H.
  cbn in H. repeat (destruct H as [H|H]; [injection H as <- <-; repeat split; reflexivity|]). destruct H.
Qed.

Fixpoint moffs (r : nat) (L : list (string * cell)) : list nat :=
  match L with [] => [] | tc :: L' => r :: moffs (r + length (menc tc)) L' end.
Lemma moffs_length r L : length (moffs r L) = length L.
Proof. revert r; induction L; intros; cbn; auto. Qed.
Lemma moffs_nth r L i : i < length L -> nth_error (moffs r L) i = Some (r + length (flat_map menc (firstn i L))).
Proof.
  revert r i; induction L as [|tc L IH]; intros r i Hi; cbn in Hi; [lia|]. destruct i as [|i]; cbn [moffs nth_error firstn flat_map].
  - cbn. f_equal. lia.
  - rewrite IH by lia. f_equal. rewrite app_length. lia.
Qed.

Lemma mixed_scan_ok L : forall fuel r, Forall mixed_cell L -> length (flat_map menc L) <= fuel ->
  mixed_scan fuel (flat_map menc L) r = Ok (combine (map (fun tc => mcode (fst tc)) L) (moffs r L)).
Proof.
  induction L as [|tc L IH]; intros fuel r HL Hf; [destruct fuel; reflexivity|].
  inversion HL as [|? ? Htc HL']; subst. destruct (mixed_facts tc Htc) as (_ & _ & Hn & _).
  cbn [flat_map map moffs combine] in *. rewrite app_length in Hf.
  assert (Hw : length (menc tc) = (if Z.eqb (mcode (fst tc)) 2 then 1 else 0) + 1 + length (snd tc)).
  { unfold menc, mhead. destruct (Z.eqb _ 2); cbn [app length]; lia. }
  destruct fuel as [|fuel]; [lia|].
  assert (E : mixed_scan (S fuel) (menc tc ++ flat_map menc L) r =
              do rest <- mixed_scan fuel (skipn (length (menc tc)) (menc tc ++ flat_map menc L)) (r + length (menc tc));
              Ok ((mcode (fst tc), r) :: rest)).
  { rewrite Hw. unfold menc, mhead. destruct (Z.eqb (mcode (fst tc)) 2) eqn:E2.
    - apply Z.eqb_eq in E2. cbn [app]. cbn [mixed_scan]. rewrite Z.eqb_refl. cbn [bind]. rewrite E2 in Hn |- *. rewrite Hn. reflexivity.
    - cbn [app]. cbn [mixed_scan]. rewrite E2. cbn [bind]. rewrite Hn. reflexivity. }
  rewrite E, skipn_app, skipn_all, Nat.sub_diag. cbn [app skipn]. rewrite IH by (auto; lia). reflexivity.
Qed.

Lemma menc_split L i tc : nth_error L i = Some tc ->
  flat_map menc L = (flat_map menc (firstn i L) ++ mhead (mcode (fst tc))) ++ snd tc ++ flat_map menc (skipn (S i) L).
Proof.
  intros H. rewrite (nth_error_split_at _ _ _ H) at 1. rewrite flat_map_app. cbn [flat_map]. unfold menc at 2.
  now rewrite <- !app_assoc.
Qed.

Theorem translate_mixed_ok L : L <> [] -> Forall mixed_cell L ->
  translate_mixed_cells (flat_map menc L) = Ok (regroup L).
Proof.
  intros HN HL. unfold translate_mixed_cells. rewrite mixed_scan_ok by auto. cbn [bind].
  set (codes := map (fun tc => mcode (fst tc)) L).
  assert (Hcl : length codes = length L) by apply map_length.
  assert (E1 : map fst (combine codes (moffs 0 L)) = codes).
  { apply map_fst_combine. now rewrite moffs_length. }
  assert (E2 : map snd (combine codes (moffs 0 L)) = moffs 0 L).
  { apply map_snd_combine. now rewrite moffs_length. }
  rewrite E1, E2. rewrite (bounds_spans Z.eqb).
  2:{ apply Zeqb_spec'. }
  2:{ intros E. apply (f_equal (@length Z)) in E. rewrite Hcl in E. destruct L; [congruence|discriminate]. }
  rewrite <- (runs_regroup_gen mcode mname mwidth L).
  2:{ intros tc Hin. rewrite Forall_forall in HL. destruct (mixed_facts tc (HL tc Hin)) as (_ & H2 & H3 & _).
      unfold mname, mwidth. now rewrite H2, H3. }
  fold codes.
  rewrite <- (bounds_blocks Z.eqb Zeqb_spec' mname codes (map snd L)
     (fun se => Block (mname (nth (fst se) codes 0%Z)) (slice (fst se) (snd se) (map snd L)))).
  2:{ now rewrite map_length. }
  2:{ intros s e a _ Ha. cbn [fst snd]. now rewrite (nth_error_nth _ _ 0%Z Ha). }
  apply mapM_ok_in. intros [s e] Hin. apply (span_const Z.eqb Zeqb_spec') in Hin.
  destruct Hin as (Hlt & Hle & a & Ha). rewrite Hcl in Hle.
  unfold mixed_block. cbn [fst snd]. pose proof (Ha s ltac:(lia)) as Has. rewrite Has. cbn [of_option bind].
  rewrite (nth_error_nth _ _ 0%Z Has). unfold codes in Has. apply nth_map_inv in Has. destruct Has as (tcs & Htcs & Hcode).
  assert (Hms : mixed_cell tcs) by (rewrite Forall_forall in HL; apply HL; eapply nth_error_In; eauto).
  destruct (mixed_facts tcs Hms) as (_ & Hnm & Hnn & _). rewrite Hcode in Hnm, Hnn.
  unfold mname. rewrite Hnm, Hnn. cbn [of_option bind].
  match goal with |- bind ?m _ = _ => assert (Hrows : m = Ok (slice s e (map snd L))) end.
  { apply mapM_nth.
    - rewrite !slice_length; auto; [now rewrite map_length|rewrite moffs_length; lia].
    - intros i x y Hx Hy. rewrite nth_error_slice in Hx. rewrite nth_error_slice in Hy.
      destruct (Nat.ltb_spec i (e - s)); [|discriminate].
      apply nth_map_inv in Hy. destruct Hy as (tc & Htc & <-).
      rewrite moffs_nth in Hx by (eapply nth_error_lt; eauto). injection Hx as <-. cbn [Nat.add].
      assert (Hc : mcode (fst tc) = a).
      { pose proof (Ha (s + i) ltac:(lia)) as H'. unfold codes in H'. rewrite nth_error_map, Htc in H'. cbn in H'. congruence. }
      assert (Hmt : mixed_cell tc) by (rewrite Forall_forall in HL; apply HL; eapply nth_error_In; eauto).
      destruct (mixed_facts tc Hmt) as (_ & _ & Hnt & _). rewrite Hc, Hnn in Hnt. injection Hnt as ->.
      rewrite (menc_split _ _ _ Htc) at 1.
      erewrite map_ext; [apply gather_seq|]. intros j. cbn beta.
      rewrite app_length. rewrite Hc. unfold mhead. destruct (Z.eqb a 2); cbn [length]; lia. }
  rewrite Hrows. reflexivity.
Qed.

(** The two writers. *)
Lemma repeat_head c (b : bool) : b = Z.eqb c 2 -> repeat c (if b then 2 else 1) = mhead c.
Proof. intros ->. unfold mhead. destruct (Z.eqb_spec c 2) as [->|]; reflexivity. Qed.

Lemma flat_map_map' {A B C} (f : A -> B) (g : B -> list C) l : flat_map g (map f l) = flat_map (fun x => g (f x)) l.
Proof. induction l; cbn; congruence. Qed.

Lemma mixed_type_code t : In t (map fst mixed_types) ->
  dget t meshio_type_to_xdmf_index = Some (mcode t) /\ Z.eqb (mcode t) 2 = String.eqb t "line".
Proof. intros H. cbn in H. repeat (destruct H as [<-|H]; [split; reflexivity|]). destruct H. Qed.

Lemma mixed_data_ok bs :
  Forall (fun b => btype b <> "vertex" /\ In (btype b) (map fst mixed_types)) bs ->
  exists l, mapM mixed_block_data bs = Ok l /\ concat l = flat_map menc (all_cells bs).
Proof.
  induction 1 as [|b bs [Hv Hb] H (l & E & Ec)]; [exists []; split; reflexivity|].
  destruct (mixed_type_code _ Hb) as [Hg H2].
  exists (flat_map (fun c => mhead (mcode (btype b)) ++ c) (bdata b) :: l). cbn [mapM]. unfold mixed_block_data at 1. rewrite Hg. cbn [of_option bind]. rewrite E.
  rewrite (repeat_head (mcode (btype b)) (smem (btype b) ["vertex"; "line"])).
  - split; [reflexivity|]. cbn [concat]. rewrite all_cells_cons, flat_map_app, Ec. f_equal. now rewrite flat_map_map'.
  - rewrite H2. unfold smem. cbn [existsb]. rewrite orb_false_r. destruct (String.eqb_spec (btype b) "vertex"); [congruence|reflexivity].
Qed.
Lemma ts_mixed_data_ok bs :
  Forall (fun b => btype b <> "line" /\ In (btype b) (map fst mixed_types)) bs ->
  exists l, mapM ts_mixed_block_data bs = Ok l /\ concat l = flat_map menc (all_cells bs).
Proof.
  induction 1 as [|b bs [Hv Hb] H (l & E & Ec)]; [exists []; split; reflexivity|].
  destruct (mixed_type_code _ Hb) as [Hg H2].
  exists (flat_map (fun c => mcode (btype b) :: c) (bdata b) :: l). cbn [mapM]. unfold ts_mixed_block_data at 1. rewrite Hg. cbn [of_option bind]. rewrite E.
  split; [reflexivity|]. cbn [concat]. rewrite all_cells_cons, flat_map_app, Ec. f_equal. rewrite flat_map_map'. cbn [fst snd]. unfold menc, mhead. cbn [fst snd].
  rewrite H2. destruct (String.eqb_spec (btype b) "line"); [congruence|]. reflexivity.
Qed.

Lemma sum_nat_app a b : sum_nat (a ++ b) = sum_nat a + sum_nat b.
Proof. unfold sum_nat. induction a; cbn in *; lia. Qed.
Lemma menc_length (L : list (string * cell)) : Forall mixed_cell L ->
  length (flat_map menc L) = sum_nat (map (fun tc => length (snd tc)) L) + length L + length (filter (fun tc => String.eqb (fst tc) "line") L).
Proof.
  induction 1 as [|tc L Htc HL IH]; [reflexivity|]. cbn [flat_map map sum_nat filter length]. rewrite app_length, IH.
  destruct (mixed_facts tc Htc) as (_ & _ & _ & H2). unfold menc, mhead. rewrite H2. destruct (String.eqb (fst tc) "line"); cbn [app length]; lia.
Qed.
Lemma dim_parts bs : sum_nat (map (fun b => sum_nat (map (@length Z) (bdata b))) bs) = sum_nat (map (fun tc => length (snd tc)) (all_cells bs)) /\
  sum_nat (map blen bs) = length (all_cells bs).
Proof.
  induction bs as [|b bs [IH1 IH2]]; [split; reflexivity|]. rewrite all_cells_cons, map_app, sum_nat_app, app_length, map_length, map_map. cbn [map sum_nat snd]. unfold blen at 1.
  rewrite IH1, IH2. split; reflexivity.
Qed.
Lemma dim_lines f bs :
  Forall (fun b => f (btype b) = String.eqb (btype b) "line") bs ->
  sum_nat (map blen (filter (fun b => f (btype b)) bs)) = length (filter (fun tc => String.eqb (fst tc) "line") (all_cells bs)).
Proof.
  induction 1 as [|b bs Hb H IH]; [reflexivity|]. rewrite all_cells_cons, filter_app, app_length. cbn [filter]. rewrite Hb.
  assert (E : length (filter (fun tc : string * cell => String.eqb (fst tc) "line") (map (pair (btype b)) (bdata b))) = if String.eqb (btype b) "line" then blen b else 0).
  { unfold blen. destruct (String.eqb (btype b) "line") eqn:E; clear - E.
    - induction (bdata b) as [|c l IH]; [reflexivity|]. cbn [map filter fst]. rewrite E. cbn. now f_equal.
    - induction (bdata b) as [|c l IH]; [reflexivity|]. cbn [map filter fst]. now rewrite E. }
  rewrite E. destruct (String.eqb (btype b) "line"); cbn [map sum_nat]; lia.
Qed.
Lemma mixed_dim_ok bs : Forall mixed_cell (all_cells bs) ->
  Forall (fun b => btype b <> "vertex" /\ In (btype b) (map fst mixed_types)) bs ->
  mixed_dim bs = length (flat_map menc (all_cells bs)).
Proof.
  intros HL Hb. rewrite menc_length by auto. unfold mixed_dim. destruct (dim_parts bs) as [-> ->]. f_equal.
  apply (dim_lines (fun t => smem t ["vertex"; "line"])). eapply Forall_impl; [|exact Hb]. intros b [Hv _]. unfold smem. cbn [existsb]. rewrite orb_false_r.
  destruct (String.eqb_spec (btype b) "vertex"); [congruence|reflexivity].
Qed.
Lemma ts_mixed_dim_ok bs : Forall mixed_cell (all_cells bs) ->
  Forall (fun b => btype b <> "line" /\ In (btype b) (map fst mixed_types)) bs ->
  ts_mixed_dim bs = length (flat_map menc (all_cells bs)).
Proof.
  intros HL Hb. rewrite menc_length by auto. unfold ts_mixed_dim. destruct (dim_parts bs) as [-> ->].
  rewrite <- (dim_lines (fun t => String.eqb t "line")) by (apply Forall_forall; reflexivity).
  replace (filter _ bs) with (@nil block); [cbn; lia|]. symmetry. induction Hb as [|b bs [Hn _] H IH]; [reflexivity|]. cbn [filter].
  destruct (String.eqb_spec (btype b) "line"); [congruence|]. apply IH. rewrite all_cells_cons in HL. apply Forall_app in HL. tauto.
Qed.
