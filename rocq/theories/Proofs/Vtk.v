(** Proofs about Model/Vtk.v: VTK cell encodings (C15-C17). *)
From Verif.Lib Require Import Base Facts Runs Facts2.
From Verif.Model Require Import Core Vtk.
From Verif.Spec Require Import Core Blocks Vtk.
From Verif.Proofs Require Import Blocks RunsBlocks.

Definition vcode (t : string) : Z :=
  match dget t meshio_to_vtk_type with Some c => c | None => 0%Z end.
Definition vname (c : Z) : string :=
  match zget c vtk_to_meshio_type with Some t => t | None => "" end.
Definition vperm (t : string) (c : cell) : cell :=
  match meshio_to_vtk_order t with
  | None => c
  | Some p => match permute p c with Some x => x | None => c end
  end.

Definition fixed_fact (tn : string * nat) : bool :=
  let '(t, n) := tn in
  match dget t meshio_to_vtk_type with Some _ => true | None => false end &&
  match zget (vcode t) vtk_to_meshio_type with Some t' => String.eqb t' t | None => false end &&
  match znth vtk_type_to_numnodes (vcode t) with Some k => Z.eqb k (Z.of_nat n) | None => false end &&
  Nat.ltb 0 n && (vcode t <? 36)%Z && (0 <=? vcode t)%Z && negb (Z.eqb 7 (vcode t)) &&
  match dget t num_nodes_per_cell with Some k => Nat.eqb k n | None => false end &&
  is_ok (cellblock_dim t) && negb (smem t special_cells) &&
  Bool.eqb (Z.eqb (vcode t) 13) (String.eqb t "wedge") &&
  (if String.eqb t "wedge" then Nat.eqb n 6 else true).

Lemma fixed_facts_all : forallb fixed_fact vtk_fixed = true.
Proof. vm_compute. reflexivity. Qed.

Record fixed_info (t : string) (n : nat) : Prop := {
  fi_code : dget t meshio_to_vtk_type = Some (vcode t);
  fi_name : zget (vcode t) vtk_to_meshio_type = Some t;
  fi_num : znth vtk_type_to_numnodes (vcode t) = Some (Z.of_nat n);
  fi_pos : 0 < n;
  fi_lt : (0 <= vcode t < 36)%Z;
  fi_not7 : vcode t <> 7%Z;
  fi_nn : dget t num_nodes_per_cell = Some n;
  fi_dim : is_ok (cellblock_dim t) = true;
  fi_reg : smem t special_cells = false;
  fi_ord : vtk_to_meshio_order (vcode t) = meshio_to_vtk_order t;
  fi_wedge : t = "wedge" -> n = 6
}.

Lemma fixed_get t n : In (t, n) vtk_fixed -> fixed_info t n.
Proof.
  intros Hin. pose proof fixed_facts_all as H. rewrite forallb_forall in H. specialize (H _ Hin).
  unfold fixed_fact in H. rewrite !andb_true_iff in H. decompose [and] H. clear H.
  constructor.
  - unfold vcode. destruct (dget t meshio_to_vtk_type); [reflexivity|discriminate].
  - destruct (zget (vcode t) vtk_to_meshio_type) as [t'|]; [|discriminate].
    f_equal. now apply String.eqb_eq.
  - destruct (znth vtk_type_to_numnodes (vcode t)) as [k|]; [|discriminate]. f_equal. now apply Z.eqb_eq.
  - now apply Nat.ltb_lt.
  - split; [now apply Z.leb_le|now apply Z.ltb_lt].
  - intros E. match goal with X : negb (Z.eqb 7 _) = true |- _ => rewrite E in X; discriminate end.
  - destruct (dget t num_nodes_per_cell) as [k|]; [|discriminate]. f_equal. now apply Nat.eqb_eq.
  - assumption.
  - now apply negb_true_iff.
  - unfold vtk_to_meshio_order, meshio_to_vtk_order.
    match goal with X : Bool.eqb _ _ = true |- _ => apply Bool.eqb_prop in X; rewrite X end. reflexivity.
  - intros ->. match goal with X : (if String.eqb "wedge" "wedge" then _ else _) = true |- _ => cbn in X end.
    now apply Nat.eqb_eq.
Qed.

Definition varying_fact (t : string) : bool :=
  match dget t meshio_to_vtk_type with Some _ => true | None => false end &&
  match zget (vcode t) vtk_to_meshio_type with Some t' => String.eqb t' t | None => false end &&
  is_ok (cellblock_dim t) && smem t special_cells && negb (Z.eqb (vcode t) 13) &&
  negb (String.eqb t "wedge").
Lemma varying_facts_all : forallb varying_fact vtk_varying = true.
Proof. vm_compute. reflexivity. Qed.

Record varying_info (t : string) : Prop := {
  vi_code : dget t meshio_to_vtk_type = Some (vcode t);
  vi_name : zget (vcode t) vtk_to_meshio_type = Some t;
  vi_dim : is_ok (cellblock_dim t) = true;
  vi_spec : smem t special_cells = true;
  vi_ord : vtk_to_meshio_order (vcode t) = None;
  vi_ord' : meshio_to_vtk_order t = None
}.
Lemma varying_get t : In t vtk_varying -> varying_info t.
Proof.
  intros Hin. pose proof varying_facts_all as H. rewrite forallb_forall in H. specialize (H _ Hin).
  unfold varying_fact in H. rewrite !andb_true_iff in H. decompose [and] H. clear H.
  constructor; auto.
  - unfold vcode. destruct (dget t meshio_to_vtk_type); [reflexivity|discriminate].
  - destruct (zget (vcode t) vtk_to_meshio_type) as [t'|]; [|discriminate]. f_equal. now apply String.eqb_eq.
  - unfold vtk_to_meshio_order. destruct (Z.eqb (vcode t) 13); [discriminate|reflexivity].
  - unfold meshio_to_vtk_order. destruct (String.eqb t "wedge"); [discriminate|reflexivity].
Qed.

(** ** One cell *)

(** C17: reordering back and forth. *)
Lemma wedge_involution (c : cell) : length c = 6 ->
  exists d, permute wedge_order c = Some d /\ length d = 6 /\ permute wedge_order d = Some c.
Proof.
  intros H. do 6 (destruct c as [|? c]; [discriminate|]). destruct c; [|discriminate].
  eexists. split; [reflexivity|]. split; reflexivity.
Qed.

Definition cell_ok (tc : string * cell) : Prop :=
  In (fst tc, length (snd tc)) vtk_fixed \/ In (fst tc) vtk_varying.

Lemma cell_ok_wedge tc : cell_ok tc -> fst tc = "wedge" -> length (snd tc) = 6.
Proof.
  intros [H|H] E.
  - now apply fixed_get, fi_wedge in H.
  - apply varying_get, vi_ord' in H. rewrite E in H. discriminate.
Qed.

Lemma vperm_reorder tc : cell_ok tc ->
  reorder (meshio_to_vtk_order (fst tc)) (snd tc) = Ok (vperm (fst tc) (snd tc)).
Proof.
  intros H. unfold reorder, vperm, meshio_to_vtk_order.
  destruct (String.eqb_spec (fst tc) "wedge") as [E|E]; [|reflexivity].
  destruct (wedge_involution (snd tc)) as (d & -> & _); [now apply cell_ok_wedge|]. reflexivity.
Qed.

Lemma vperm_length tc : cell_ok tc -> length (vperm (fst tc) (snd tc)) = length (snd tc).
Proof.
  intros H. unfold vperm, meshio_to_vtk_order.
  destruct (String.eqb_spec (fst tc) "wedge") as [E|E]; [|reflexivity].
  pose proof (cell_ok_wedge _ H E) as H6.
  destruct (wedge_involution (snd tc) H6) as (d & -> & -> & _). now rewrite H6.
Qed.

Lemma cell_ok_name tc : cell_ok tc -> zget (vcode (fst tc)) vtk_to_meshio_type = Some (fst tc).
Proof. intros [H|H]; [eapply fi_name, fixed_get; eauto|now apply vi_name, varying_get]. Qed.
Lemma cell_ok_code tc : cell_ok tc -> dget (fst tc) meshio_to_vtk_type = Some (vcode (fst tc)).
Proof. intros [H|H]; [eapply fi_code, fixed_get; eauto|now apply vi_code, varying_get]. Qed.
Lemma cell_ok_ord tc : cell_ok tc -> vtk_to_meshio_order (vcode (fst tc)) = meshio_to_vtk_order (fst tc).
Proof.
  intros [H|H]; [eapply fi_ord, fixed_get; eauto|]. apply varying_get in H.
  now rewrite (vi_ord _ H), (vi_ord' _ H).
Qed.
Lemma cell_ok_dim tc : cell_ok tc -> is_ok (cellblock_dim (fst tc)) = true.
Proof. intros [H|H]; [eapply fi_dim, fixed_get; eauto|now apply vi_dim, varying_get]. Qed.

Lemma vname_code tc : cell_ok tc -> vname (vcode (fst tc)) = fst tc.
Proof. intros H. unfold vname. now rewrite cell_ok_name. Qed.

(** Decoding a cell at its place. *)
Lemma decode_cell tc pre post : cell_ok tc ->
  gather (pre ++ vperm (fst tc) (snd tc) ++ post)
    (index_row (vtk_to_meshio_order (vcode (fst tc))) (Z.of_nat (length (snd tc)))
       (Z.of_nat (length pre))) = Ok (snd tc).
Proof.
  intros H. rewrite cell_ok_ord by auto. unfold index_row, vperm, meshio_to_vtk_order.
  destruct (String.eqb_spec (fst tc) "wedge") as [E|E].
  - destruct (wedge_involution (snd tc)) as (d & -> & _ & Hd); [now apply cell_ok_wedge|].
    now apply gather_perm.
  - rewrite Nat2Z.id. apply gather_seq.
Qed.

(** ** Blocks as cell sequences *)
Definition block_ok (b : block) : Prop := fixed_block b \/ varying_block b.

Lemma block_ok_cells b : block_ok b -> Forall cell_ok (map (pair (btype b)) (bdata b)).
Proof.
  intros H. apply Forall_forall. intros tc Hin. apply in_map_iff in Hin. destruct Hin as (c & <- & Hc).
  destruct H as [(n & Hn & Hr)|[Hv _]].
  - left. cbn. unfold rows_have in Hr. rewrite Forall_forall in Hr. now rewrite (Hr c Hc).
  - right. exact Hv.
Qed.

Lemma blocks_ok_cells bs : Forall block_ok bs -> Forall cell_ok (all_cells bs).
Proof.
  induction 1 as [|b bs Hb Hbs IH]; [constructor|]. rewrite all_cells_cons. apply Forall_app. split; auto.
  now apply block_ok_cells.
Qed.

Lemma block_code b : block_ok b -> dget (btype b) meshio_to_vtk_type = Some (vcode (btype b)).
Proof.
  intros [(n & Hn & _)|[Hv _]]; [eapply fi_code, fixed_get; eauto|now apply vi_code, varying_get].
Qed.

Lemma block_rows b : block_ok b ->
  mapM (reorder (meshio_to_vtk_order (btype b))) (bdata b) = Ok (map (vperm (btype b)) (bdata b)).
Proof.
  intros H. apply mapM_Forall2. apply block_ok_cells in H. induction (bdata b) as [|c cs IH]; constructor.
  - inversion H; subst. now apply (vperm_reorder (btype b, c)).
  - inversion H; subst. auto.
Qed.

Definition enc42 (tc : string * cell) : list Z :=
  Z.of_nat (length (snd tc)) :: vperm (fst tc) (snd tc).
Definition code_of (tc : string * cell) : Z := vcode (fst tc).
Definition len_of (tc : string * cell) : Z := Z.of_nat (length (snd tc)).

Lemma flat_map_map {A B C} (f : B -> list C) (g : A -> B) l : flat_map f (map g l) = flat_map (fun x => f (g x)) l.
Proof. induction l as [|x l IH]; cbn; auto. now rewrite IH. Qed.

Lemma map_const_repeat {A B} (f : A -> B) y l : (forall x, In x l -> f x = y) -> map f l = repeat y (length l).
Proof. induction l as [|x l IH]; cbn; intros H; auto. rewrite H, IH by auto. reflexivity. Qed.

Lemma write_cells_42_ok bs : Forall block_ok bs ->
  write_cells_42 bs = Ok (flat_map enc42 (all_cells bs), map code_of (all_cells bs)).
Proof.
  intros H. unfold write_cells_42.
  assert (E : mapM write_block_42 bs =
     Ok (map (fun b => (flat_map enc42 (map (pair (btype b)) (bdata b)), map code_of (map (pair (btype b)) (bdata b)))) bs)).
  { apply mapM_Forall2. induction H as [|b bs Hb Hbs IH]; constructor; auto.
    unfold write_block_42. rewrite block_rows, block_code by auto. cbn [bind of_option]. f_equal. f_equal.
    - pose proof (block_ok_cells _ Hb) as Hc. induction (bdata b) as [|c cs IHc]; [reflexivity|].
      inversion Hc; subst. cbn [map flat_map]. rewrite IHc by auto. unfold enc42 at 2. cbn [fst snd].
      pose proof (vperm_length (btype b, c)) as E'. cbn [fst snd] in E'. now rewrite E'.
    - unfold blen. rewrite map_map. rewrite map_const_repeat with (y := vcode (btype b)); auto. }
  rewrite E. cbn [bind]. f_equal. f_equal.
  - rewrite flat_map_map. cbn [fst]. clear E. induction bs as [|b bs IH]; [reflexivity|].
    cbn [flat_map]. rewrite IH, all_cells_cons, flat_map_app; [reflexivity|]. now inversion H.
  - rewrite flat_map_map. cbn [snd]. clear E. induction bs as [|b bs IH]; [reflexivity|].
    cbn [flat_map]. rewrite IH, all_cells_cons, map_app; [reflexivity|]. now inversion H.
Qed.

(** ** Reading VTK 4.2 without polygons *)
Lemma starts_nth acc L i : Forall cell_ok L -> i < length L ->
  nth_error (starts_42 acc (map len_of L)) i =
  Some (acc + Z.of_nat (length (flat_map enc42 (firstn i L))))%Z.
Proof.
  intros H. revert acc i; induction H as [|tc L Htc HL IH]; intros acc i Hi; cbn in Hi; [lia|].
  destruct i as [|i]; cbn [map starts_42 nth_error firstn flat_map].
  - f_equal. cbn. lia.
  - rewrite IH by lia. f_equal. rewrite app_length. unfold enc42 at 2. cbn [length].
    rewrite vperm_length by auto. unfold len_of. lia.
Qed.

Lemma starts_length acc l : length (starts_42 acc l) = length l.
Proof. revert acc; induction l; intros; cbn; auto. Qed.

Lemma split_enc L i tc : nth_error L i = Some tc ->
  flat_map enc42 L = flat_map enc42 (firstn i L) ++ enc42 tc ++ flat_map enc42 (skipn (S i) L).
Proof.
  intros H. rewrite (nth_error_split_at _ _ _ H) at 1. rewrite flat_map_app. reflexivity.
Qed.

Lemma decode_42 L i tc : Forall cell_ok L -> nth_error L i = Some tc ->
  gather (flat_map enc42 L)
    (index_row (vtk_to_meshio_order (code_of tc)) (len_of tc)
       (Z.of_nat (length (flat_map enc42 (firstn i L))) + 1)) = Ok (snd tc).
Proof.
  intros HL Hi. rewrite (split_enc _ _ _ Hi).
  assert (Htc : cell_ok tc) by (rewrite Forall_forall in HL; apply HL; eapply nth_error_In; eauto).
  unfold enc42 at 2.
  replace (flat_map enc42 (firstn i L) ++ (Z.of_nat (length (snd tc)) :: vperm (fst tc) (snd tc)) ++
             flat_map enc42 (skipn (S i) L))
    with ((flat_map enc42 (firstn i L) ++ [Z.of_nat (length (snd tc))]) ++ vperm (fst tc) (snd tc) ++
             flat_map enc42 (skipn (S i) L)) by (rewrite <- app_assoc; reflexivity).
  replace (Z.of_nat (length (flat_map enc42 (firstn i L))) + 1)%Z
    with (Z.of_nat (length (flat_map enc42 (firstn i L) ++ [Z.of_nat (length (snd tc))])))
    by (rewrite app_length; cbn; lia).
  now apply decode_cell.
Qed.

Definition all_fixed (L : list (string * cell)) : Prop :=
  Forall (fun tc => In (fst tc, length (snd tc)) vtk_fixed) L.

Lemma all_fixed_ok L : all_fixed L -> Forall cell_ok L.
Proof. intros H. eapply Forall_impl; [|exact H]. intros tc Ht. now left. Qed.

Lemma nth_map_inv {A B} (f : A -> B) l i y : nth_error (map f l) i = Some y -> exists x, nth_error l i = Some x /\ f x = y.
Proof. rewrite nth_error_map. destruct (nth_error l i) as [x|]; cbn; [|discriminate]. intros H. injection H as <-. eauto. Qed.

Lemma Zeqb_spec' x y : reflect (x = y) (Z.eqb x y).
Proof. apply Z.eqb_spec. Qed.

Lemma filter_id {A} (f : A -> bool) l : (forall x, In x l -> f x = true) -> filter f l = l.
Proof. induction l as [|x l IH]; cbn; auto. intros H. rewrite H, IH by auto. reflexivity. Qed.

Lemma pair_combine L : combine (map fst L) (map snd L) = L :> list (string * cell).
Proof. induction L as [|[t c] L IH]; cbn; auto. now rewrite IH. Qed.

Lemma code_inj_width L c1 c2 : Forall cell_ok L -> In c1 (map code_of L) -> In c2 (map code_of L) ->
  vname c1 = vname c2 -> c1 = c2.
Proof.
  intros HL H1 H2 E. rewrite Forall_forall in HL.
  apply in_map_iff in H1. destruct H1 as (t1 & <- & H1). apply in_map_iff in H2. destruct H2 as (t2 & <- & H2).
  unfold code_of in *. rewrite !vname_code in E by auto. now rewrite E.
Qed.

Definition vnum (c : Z) : nat :=
  match znth vtk_type_to_numnodes c with Some z => Z.to_nat z | None => 0 end.

(** Blocks cut along the runs of the codes are the regrouped cells, if the width is a
    function of the code. *)
Lemma runs_regroup L : all_fixed L ->
  blocks_of vname (runs Z.eqb (map code_of L)) (map snd L) = regroup L.
Proof.
  intros HL. pose proof (all_fixed_ok _ HL) as HL'.
  set (rs := runs Z.eqb (map code_of L)).
  assert (Hlen : length (map snd L) = sum_nat (map snd rs)) by (unfold rs; rewrite runs_total, !map_length; reflexivity).
  assert (Hex : expand rs = map code_of L) by (apply expand_runs, Zeqb_spec').
  assert (Hfst : forall a, In a (map fst rs) -> In a (map code_of L)).
  { intros a Ha. rewrite <- Hex. unfold expand. apply in_flat_map. apply in_map_iff in Ha.
    destruct Ha as ([a' n] & <- & Hin). exists (a', n). split; auto. cbn.
    assert (0 < n) by (eapply runs_pos; eauto). destruct n; [lia|]. now left. }
  rewrite (grouped_regroup (blocks_of vname rs (map snd L))).
  - f_equal. rewrite blocks_of_cells by auto. rewrite Hex, map_map.
    rewrite <- (pair_combine L) at 3. f_equal. apply map_ext_in. intros tc Hin. unfold code_of.
    apply vname_code. rewrite Forall_forall in HL'. auto.
  - apply (blocks_of_grouped vname vnum); auto.
    + intros a n. apply runs_pos.
    + apply runs_alternating, Zeqb_spec'.
    + intros a b Ha Hb E _. eapply code_inj_width; eauto.
    + rewrite Hex. clear -HL. induction HL as [|tc L Htc HL IH]; constructor; auto.
      unfold vnum, code_of. apply fixed_get, fi_num in Htc. now rewrite Htc, Nat2Z.id.
Qed.

Lemma translate_fixed_ok L : all_fixed L ->
  translate_fixed_42 (flat_map enc42 L) (map code_of L) =
  Ok (map (fun se => (Block (vname (nth (fst se) (map code_of L) 0%Z)) (slice (fst se) (snd se) (map snd L)), se))
          (spans 0 (runs Z.eqb (map code_of L)))).
Proof.
  intros HL. pose proof (all_fixed_ok _ HL) as HL'. unfold translate_fixed_42.
  replace (existsb _ (map code_of L)) with false.
  2: { symmetry. apply not_true_is_false. intros E. apply existsb_exists in E. destruct E as (c & Hc & Hle).
       apply in_map_iff in Hc. destruct Hc as (tc & <- & Hin). unfold all_fixed in HL. rewrite Forall_forall in HL.
       specialize (HL _ Hin). apply fixed_get, fi_lt in HL. unfold code_of in Hle. apply Z.leb_le in Hle. 
       change (Z.of_nat (length vtk_type_to_numnodes)) with 36%Z in Hle. lia. }
  assert (E1 : gather vtk_type_to_numnodes (map code_of L) = Ok (map len_of L)).
  { apply mapM_Forall2. clear HL'. induction HL as [|tc L Htc HL IH]; constructor; auto.
    unfold code_of. apply fixed_get, fi_num in Htc. now rewrite Htc. }
  rewrite E1. cbn [bind].
  replace (forallb _ (map len_of L)) with true.
  2: { symmetry. apply forallb_forall. intros z Hz. apply in_map_iff in Hz. destruct Hz as (tc & <- & Hin).
       unfold all_fixed in HL. rewrite Forall_forall in HL. specialize (HL _ Hin). apply fixed_get, fi_pos in HL.
       unfold len_of. apply Z.ltb_lt. lia. }
  cbn [negb].
  assert (E2 : gather (flat_map enc42 L) (starts_42 0 (map len_of L)) = Ok (map len_of L)).
  { apply mapM_nth; [now rewrite starts_length|]. intros i x y Hx Hy.
    apply nth_map_inv in Hy. destruct Hy as (tc & Htc & <-).
    rewrite starts_nth in Hx by (auto; eapply nth_error_lt; eauto). injection Hx as <-.
    cbn [Z.add]. rewrite (split_enc _ _ _ Htc), znth_nat.
    rewrite nth_error_app2 by lia. rewrite Nat.sub_diag. reflexivity. }
  rewrite E2. cbn [bind].
  replace (forallb _ (combine (map len_of L) (map len_of L))) with true.
  2: { symmetry. apply forallb_forall. intros [a b] Hin. cbn. apply Z.eqb_eq.
       clear -Hin. induction (map len_of L) as [|x l IH]; cbn in Hin; [tauto|].
       destruct Hin as [E|Hin]; [congruence|auto]. }
  cbn [negb].
  assert (L = [] \/ map code_of L <> []) as [->|HN] by (destruct L; [left|right]; cbn; congruence).
  { reflexivity. }
  rewrite (bounds_spans Z.eqb) by auto using Zeqb_spec'.
  rewrite filter_id.
  2: { intros [s e] Hin. apply (span_const Z.eqb Zeqb_spec') in Hin. cbn. destruct Hin as [Hlt _].
       destruct (Nat.eqb_spec s e); [lia|reflexivity]. }
  apply mapM_Forall2.
  assert (G : forall l, (forall p, In p l -> In p (spans 0 (runs Z.eqb (map code_of L)))) ->
    Forall2 (fun x y => read_block_42 (flat_map enc42 L) (map code_of L) (map len_of L)
        (starts_42 0 (map len_of L)) x = Ok y) l
      (map (fun se => (Block (vname (nth (fst se) (map code_of L) 0%Z)) (slice (fst se) (snd se) (map snd L)), se)) l)).
  { induction l as [|[s e] l IH]; intros Hin; constructor; [|apply IH; intros; apply Hin; now right].
    specialize (Hin (s, e) (or_introl eq_refl)). apply (span_const Z.eqb Zeqb_spec') in Hin.
    destruct Hin as (Hlt & Hle & a & Ha). rewrite map_length in Hle.
    cbn [fst snd]. unfold read_block_42.
    pose proof (Ha s ltac:(lia)) as Has. rewrite Has. cbn [of_option bind].
    rewrite (nth_error_nth _ _ 0%Z Has).
    apply nth_map_inv in Has. destruct Has as (tcs & Htcs & Hcode).
    assert (Hfs : In (fst tcs, length (snd tcs)) vtk_fixed)
      by (unfold all_fixed in HL; rewrite Forall_forall in HL; apply HL; eapply nth_error_In; eauto).
    assert (Hnm : zget a vtk_to_meshio_type = Some (fst tcs)) by (subst a; apply cell_ok_name; left; auto).
    rewrite Hnm. cbn [of_option bind]. unfold vname. rewrite Hnm.
    rewrite nth_error_map, Htcs. cbn [option_map of_option bind].
    assert (Hrows : mapM (fun off => gather (flat_map enc42 L) (index_row (vtk_to_meshio_order a) (len_of tcs) (off + 1)))
              (slice s e (starts_42 0 (map len_of L))) = Ok (slice s e (map snd L))).
    { apply mapM_nth.
      - rewrite !slice_length; auto; [now rewrite map_length|rewrite starts_length, map_length; lia].
      - intros i x y Hx Hy. rewrite nth_error_slice in Hx. rewrite nth_error_slice in Hy.
        destruct (Nat.ltb_spec i (e - s)); [|discriminate].
        apply nth_map_inv in Hy. destruct Hy as (tc & Htc & <-).
        rewrite starts_nth in Hx by (auto; eapply nth_error_lt; eauto). injection Hx as <-.
        assert (Hc : code_of tc = a).
        { pose proof (Ha (s + i) ltac:(lia)) as H'. rewrite nth_error_map, Htc in H'. cbn in H'. congruence. }
        assert (Hl : len_of tcs = len_of tc).
        { assert (Hf : In (fst tc, length (snd tc)) vtk_fixed)
            by (unfold all_fixed in HL; rewrite Forall_forall in HL; apply HL; eapply nth_error_In; eauto).
          apply fixed_get, fi_num in Hf. apply fixed_get, fi_num in Hfs.
          fold (code_of tc) in Hf. fold (code_of tcs) in Hfs. rewrite Hc in Hf. rewrite Hcode in Hfs.
          unfold len_of. congruence. }
        rewrite Hl, <- Hc. cbn [Z.add]. now apply decode_42. }
    rewrite Hrows. reflexivity. }
  apply G. auto.
Qed.

Lemma fixed_no_polygon L : all_fixed L -> existsb (Z.eqb 7) (map code_of L) = false.
Proof.
  intros HL. apply not_true_is_false. intros E. apply existsb_exists in E. destruct E as (c & Hc & Heq).
  apply in_map_iff in Hc. destruct Hc as (tc & <- & Hin). unfold all_fixed in HL. rewrite Forall_forall in HL.
  specialize (HL _ Hin). apply fixed_get, fi_not7 in HL. apply Z.eqb_eq in Heq. unfold code_of in Heq. congruence.
Qed.

Lemma fixed_blocks_all_fixed bs : Forall fixed_block bs -> all_fixed (all_cells bs).
Proof.
  induction 1 as [|b bs (n & Hn & Hr) Hbs IH]; [constructor|]. rewrite all_cells_cons. apply Forall_app. split; auto.
  apply Forall_forall. intros tc Hin. apply in_map_iff in Hin. destruct Hin as (c & <- & Hc). cbn.
  unfold rows_have in Hr. rewrite Forall_forall in Hr. now rewrite (Hr c Hc).
Qed.

Lemma vtk42_roundtrip bs : Forall fixed_block bs ->
  exists conn types sp,
    write_cells_42 bs = Ok (conn, types) /\
    translate_cells conn types = Ok (regroup (all_cells bs), Some sp) /\
    forall V (d : list V), length d = length (all_cells bs) ->
      pieces sp d = data_for (regroup (all_cells bs)) d.
Proof.
  intros H. assert (HL := fixed_blocks_all_fixed _ H). set (L := all_cells bs) in *.
  exists (flat_map enc42 L), (map code_of L), (spans 0 (runs Z.eqb (map code_of L))).
  split; [|split].
  - apply write_cells_42_ok. eapply Forall_impl; [|exact H]. intros b Hb. now left.
  - unfold translate_cells. rewrite fixed_no_polygon, translate_fixed_ok by auto. cbn [bind].
    rewrite !map_map. cbn [fst snd]. rewrite map_id. f_equal. f_equal.
    rewrite <- (runs_regroup L HL).
    rewrite (bounds_blocks Z.eqb Zeqb_spec' vname (map code_of L) (map snd L)); [reflexivity|now rewrite !map_length|].
    intros s e a _ Ha. cbn [fst snd]. now rewrite (nth_error_nth _ _ 0%Z Ha).
  - intros V d Hd. unfold pieces. rewrite slices_spans. cbn [skipn].
    rewrite <- (runs_regroup L HL). rewrite blocks_of_data; auto.
    + rewrite runs_total, !map_length. reflexivity.
    + now rewrite map_length.
Qed.

(** ** Reading VTK 4.2 with polygons *)
Lemma push_cons b b' bs t c : push_cell (b :: b' :: bs) t c = b :: push_cell (b' :: bs) t c.
Proof.
  unfold push_cell. change (rev (b :: b' :: bs)) with (rev (b' :: bs) ++ [b]).
  destruct (rev (b' :: bs)) as [|[t' rows] older] eqn:E.
  - apply (f_equal (@length block)) in E. rewrite rev_length in E. discriminate.
  - cbn [app]. rewrite rev_app_distr. cbn [rev app]. destruct (rev rows) as [|last r]; [reflexivity|].
    destruct (String.eqb t' t && Nat.eqb (length c) (length last)); reflexivity.
Qed.

Lemma push_grouped bs t c : grouped bs ->
  grouped (push_cell bs t c) /\ all_cells (push_cell bs t c) = all_cells bs ++ [(t, c)] /\
  headkey (push_cell bs t c) = match headkey bs with None => Some (t, length c) | k => k end.
Proof.
  induction bs as [|b bs IH]; intros H.
  - cbn. split; [|split]; auto. split; auto. exists c, []. repeat split; auto; discriminate.
  - destruct bs as [|b' bs].
    + destruct b as [t' rows]. destruct H as [(c0 & cs & Hb & Hf & _) _]. cbn in Hb. subst rows.
      unfold push_cell. cbn [rev app].
      destruct (rev cs ++ [c0]) as [|last r] eqn:E; [destruct (rev cs); discriminate|].
      assert (Hlast : length last = length c0).
      { destruct (rev cs) as [|x xs] eqn:E2; cbn in E; injection E as <- _; auto.
        rewrite Forall_forall in Hf. apply Hf. apply in_rev. rewrite E2. now left. }
      destruct (String.eqb_spec t' t) as [->|Ht]; cbn [andb].
      * destruct (Nat.eqb_spec (length c) (length last)) as [El|El].
        -- split; [|split; [|reflexivity]].
           ++ cbn. split; auto. exists c0, (cs ++ [c]). repeat split; try discriminate.
              apply Forall_app. split; auto. repeat constructor. congruence.
           ++ cbn. rewrite !app_nil_r, map_app. reflexivity.
        -- split; [|split; [|reflexivity]].
           ++ cbn. split; [|split; auto].
              ** exists c0, cs. repeat split; auto. congruence.
              ** exists c, []. repeat split; auto; discriminate.
           ++ unfold all_cells. cbn. rewrite app_nil_r. reflexivity.
      * split; [|split; [|reflexivity]].
        ++ cbn. split; [|split; auto].
           ** exists c0, cs. repeat split; auto. congruence.
           ** exists c, []. repeat split; auto; discriminate.
        ++ unfold all_cells. cbn. rewrite app_nil_r. reflexivity.
    + destruct H as [(c0 & cs & Hb & Hf & Hk) Hg]. destruct (IH Hg) as (IH1 & IH2 & IH3).
      rewrite push_cons. split; [|split].
      * split; [|exact IH1]. exists c0, cs. repeat split; auto. rewrite IH3.
        destruct Hg as [(c1 & cs1 & Hb1 & _) _]. destruct b' as [t1 r1]. cbn in Hb1. subst r1. exact Hk.
      * rewrite !(all_cells_cons b), IH2, app_assoc. reflexivity.
      * destruct b as [t1 r1]. cbn in Hb. subst r1. reflexivity.
Qed.

Lemma scan_ok L L1 : Forall cell_ok L -> Forall cell_ok L1 ->
  scan_42 (flat_map enc42 L1 ++ flat_map enc42 L) (length L) (Z.of_nat (length (flat_map enc42 L1))) =
  Ok (combine (map len_of L) (starts_42 (Z.of_nat (length (flat_map enc42 L1))) (map len_of L))).
Proof.
  intros HL. revert L1; induction HL as [|tc L Htc HL IH]; intros L1 H1; [reflexivity|].
  cbn [length scan_42 map starts_42 combine flat_map]. rewrite znth_nat, nth_error_app2 by lia.
  rewrite Nat.sub_diag. change (nth_error (enc42 tc ++ flat_map enc42 L) 0) with (Some (len_of tc)).
  cbn [of_option bind].
  specialize (IH (L1 ++ [tc])). rewrite !flat_map_app in IH. cbn [flat_map] in IH. rewrite app_nil_r in IH.
  rewrite <- app_assoc in IH. rewrite app_length in IH.
  assert (El : length (enc42 tc) = S (length (snd tc))) by (unfold enc42; cbn [length]; now rewrite vperm_length).
  rewrite El in IH.
  replace (Z.of_nat (length (flat_map enc42 L1) + S (length (snd tc))))
    with (Z.of_nat (length (flat_map enc42 L1)) + len_of tc + 1)%Z in IH by (unfold len_of; lia).
  rewrite IH by (apply Forall_app; auto). cbn [bind]. rewrite Z.add_assoc. reflexivity.
Qed.

Lemma translate_poly_ok L1 L2 : Forall cell_ok (L1 ++ L2) ->
  translate_poly_42 (flat_map enc42 (L1 ++ L2)) (regroup L1)
    (combine (map code_of L2) (combine (map len_of L2) (starts_42 (Z.of_nat (length (flat_map enc42 L1))) (map len_of L2)))) =
  Ok (regroup (L1 ++ L2)).
Proof.
  revert L1; induction L2 as [|tc L2 IH]; intros L1 H.
  - cbn. now rewrite app_nil_r.
  - cbn [map starts_42 combine translate_poly_42].
    assert (Hn : nth_error (L1 ++ tc :: L2) (length L1) = Some tc)
      by (rewrite nth_error_app2, Nat.sub_diag by lia; reflexivity).
    pose proof (decode_42 _ _ _ H Hn) as Hd. rewrite firstn_app, firstn_all, Nat.sub_diag in Hd.
    cbn [firstn] in Hd. rewrite app_nil_r in Hd. rewrite Hd. cbn [bind].
    assert (Htc : cell_ok tc) by (apply Forall_app in H; destruct H as [_ H]; now inversion H).
    unfold code_of at 1. rewrite cell_ok_name by auto. cbn [of_option bind].
    replace (push_cell (regroup L1) (fst tc) (snd tc)) with (regroup (L1 ++ [tc])).
    2: { destruct (push_grouped (regroup L1) (fst tc) (snd tc) (regroup_grouped L1)) as (G1 & G2 & _).
         rewrite (grouped_regroup _ G1), G2, regroup_cells. destruct tc; reflexivity. }
    replace (L1 ++ tc :: L2) with ((L1 ++ [tc]) ++ L2) in * by (rewrite <- app_assoc; reflexivity).
    rewrite <- IH by auto. do 3 f_equal. f_equal.
    rewrite flat_map_app, app_length. cbn [flat_map]. rewrite app_nil_r. unfold enc42 at 3. cbn [length].
    rewrite vperm_length by auto. unfold len_of. lia.
Qed.

Lemma vtk42_polygons bs : Forall block_ok bs -> (exists c, In ("polygon", c) (all_cells bs)) ->
  exists conn types,
    write_cells_42 bs = Ok (conn, types) /\
    translate_cells conn types = Ok (regroup (all_cells bs), None).
Proof.
  intros H (c & Hc). pose proof (blocks_ok_cells _ H) as HL.
  exists (flat_map enc42 (all_cells bs)), (map code_of (all_cells bs)).
  split; [now apply write_cells_42_ok|]. unfold translate_cells.
  replace (existsb (Z.eqb 7) (map code_of (all_cells bs))) with true.
  2: { symmetry. apply existsb_exists. exists 7%Z. split; auto. apply in_map_iff. exists ("polygon", c). auto. }
  rewrite map_length. pose proof (scan_ok (all_cells bs) [] HL ltac:(constructor)) as Hs.
  cbn [flat_map app length Z.of_nat] in Hs. rewrite Hs. cbn [bind].
  pose proof (translate_poly_ok [] (all_cells bs) HL) as Ht.
  cbn [flat_map app length Z.of_nat regroup] in Ht. rewrite Ht. reflexivity.
Qed.
