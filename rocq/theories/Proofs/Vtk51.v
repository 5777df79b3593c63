(** Proofs about the offset/connectivity encoding of VTK 5.1 and VTU (C16). *)
From Verif.Lib Require Import Base Facts Runs Facts2.
From Verif.Model Require Import Core Vtk.
From Verif.Spec Require Import Core Blocks Vtk.
From Verif.Proofs Require Import Blocks RunsBlocks CoreMisc Vtk.

Definition enc (tc : string * cell) : list Z := vperm (fst tc) (snd tc).

Fixpoint ends (acc : Z) (L : list (string * cell)) : list Z :=
  match L with
  | [] => []
  | tc :: L' => (acc + len_of tc)%Z :: ends (acc + len_of tc) L'
  end.

Definition pos (L : list (string * cell)) (i : nat) : Z := Z.of_nat (length (flat_map enc (firstn i L))).

Lemma ends_length acc L : length (ends acc L) = length L.
Proof. revert acc; induction L; intros; cbn; auto. Qed.

Lemma ends_nth acc L i : Forall cell_ok L -> i < length L ->
  nth_error (ends acc L) i = Some (acc + pos L (S i))%Z.
Proof.
  intros H. revert acc i; induction H as [|tc L Htc HL IH]; intros acc i Hi; cbn in Hi; [lia|].
  destruct i as [|i]; cbn [ends nth_error].
  - unfold pos. cbn. rewrite app_nil_r. unfold enc. rewrite vperm_length by auto. reflexivity.
  - rewrite IH by lia. unfold pos. cbn [firstn flat_map]. f_equal. rewrite app_length.
    unfold enc at 2. rewrite vperm_length by auto. unfold len_of. lia.
Qed.

Lemma pos_S L i tc : cell_ok tc -> nth_error L i = Some tc -> pos L (S i) = (pos L i + len_of tc)%Z.
Proof.
  intros Hok H. unfold pos.
  assert (E : firstn (S i) L = firstn i L ++ [tc]).
  { revert i H. induction L as [|x L IH]; intros [|i]; cbn; try discriminate.
    - intros H. injection H as ->. reflexivity.
    - intros H. f_equal. now apply IH. }
  rewrite E, flat_map_app, app_length. cbn. rewrite app_nil_r. unfold enc at 2. rewrite vperm_length by auto.
  unfold len_of. lia.
Qed.

Lemma decode_51 L i tc : Forall cell_ok L -> nth_error L i = Some tc ->
  gather (flat_map enc L)
    (index_row (vtk_to_meshio_order (code_of tc)) (len_of tc) (pos L (S i) - len_of tc)) = Ok (snd tc).
Proof.
  intros HL Hi.
  assert (Htc : cell_ok tc) by (rewrite Forall_forall in HL; apply HL; eapply nth_error_In; eauto).
  rewrite (pos_S _ _ _ Htc Hi). replace (pos L i + len_of tc - len_of tc)%Z with (pos L i) by lia.
  rewrite (nth_error_split_at _ _ _ Hi) at 1. rewrite flat_map_app. cbn [flat_map].
  now apply decode_cell.
Qed.

Lemma last_cons_d {A} (x : A) l d : last (x :: l) d = last l x.
Proof.
  revert x d; induction l as [|y l IH]; intros x d; [reflexivity|].
  change (last (x :: y :: l) d) with (last (y :: l) d). now rewrite !IH.
Qed.

Lemma ends_app k L1 L2 : ends k (L1 ++ L2) = ends k L1 ++ ends (last (ends k L1) k) L2.
Proof.
  revert k; induction L1 as [|tc L1 IH]; intros k; [reflexivity|].
  cbn [app ends]. rewrite IH. f_equal. f_equal. f_equal.
  now rewrite last_cons_d.
Qed.

(** ** Writer *)
Lemma ends_block k t n rows : Forall (fun c : cell => length c = n) rows ->
  ends k (map (pair t) rows) = map (fun i => (k + Z.of_nat n + Z.of_nat i * Z.of_nat n)%Z) (seq 0 (length rows)).
Proof.
  intros H. revert k; induction H as [|c rows Hc H IH]; intros k; [reflexivity|].
  cbn [map ends length seq]. unfold len_of at 1 2. cbn [snd]. rewrite IH, Hc. f_equal; [lia|].
  rewrite <- seq_shift, map_map. apply map_ext. intros i. lia.
Qed.

Lemma last_rev {A} (l : list A) x xs d : rev l = x :: xs -> last l d = x.
Proof.
  intros H. rewrite <- (rev_involutive l), H. cbn. now rewrite last_last.
Qed.

Lemma rows_have_width n b : rows_have n b -> bdata b <> [] -> width b = n.
Proof. unfold rows_have, width. destruct (bdata b) as [|r rs]; [congruence|]. intros H _. now inversion H. Qed.

Lemma block_rect b : block_ok b -> rectangular b.
Proof. intros [(n & _ & H)|[_ H]]; [now exists n|exact H]. Qed.

Lemma offsets_51_from_ok k bs : Forall rectangular bs -> Forall nonempty_block bs ->
  offsets_51_from k bs = Ok (ends k (all_cells bs)).
Proof.
  intros H. revert k; induction H as [|b bs (n & Hn) H IH]; intros k He; [reflexivity|].
  inversion He as [|? ? Hb He']; subst. rewrite all_cells_cons, ends_app.
  cbn [offsets_51_from]. rewrite (rows_have_width n b) by auto. unfold blen.
  rewrite <- (ends_block k (btype b) n) by exact Hn.
  destruct (rev (ends k (map (pair (btype b)) (bdata b)))) as [|x xs] eqn:E.
  - apply (f_equal (@length Z)) in E. rewrite rev_length, ends_length, map_length in E.
    unfold nonempty_block in Hb. destruct (bdata b); [congruence|discriminate].
  - rewrite (last_rev _ _ _ k E). rewrite IH by auto. reflexivity.
Qed.

Lemma map_add_ends k l L : map (Z.add k) (ends l L) = ends (k + l) L.
Proof. revert l; induction L as [|tc L IH]; intros l; cbn; auto. rewrite IH. f_equal; [lia|f_equal; lia]. Qed.

Lemma vtu_block_ends b n : rows_have n b -> vtu_block_offsets b = ends 0 (map (pair (btype b)) (bdata b)).
Proof.
  intros H. rewrite (ends_block 0 (btype b) n) by exact H. unfold vtu_block_offsets, blen.
  destruct (bdata b) as [|r rs] eqn:E; [reflexivity|].
  rewrite (rows_have_width n b) by (auto; rewrite E; discriminate).
  rewrite <- seq_shift, map_map. apply map_ext. intros i. lia.
Qed.

Lemma offsets_vtu_from_ok k prev bs : Forall rectangular bs -> Forall nonempty_block bs ->
  prev <> [] -> k = last prev 0%Z ->
  offsets_vtu_from prev bs = Ok (ends k (all_cells bs)).
Proof.
  intros H. revert k prev; induction H as [|b bs (n & Hn) H IH]; intros k prev He Hp Hk; [reflexivity|].
  inversion He as [|? ? Hb He']; subst. rewrite all_cells_cons, ends_app.
  cbn [offsets_vtu_from]. destruct (rev prev) as [|x xs] eqn:E.
  { apply (f_equal (@length Z)) in E. rewrite rev_length in E. destruct prev; [congruence|discriminate]. }
  rewrite (last_rev _ _ _ 0%Z E). rewrite (vtu_block_ends b n Hn), map_add_ends, Z.add_0_r.
  assert (Hne : ends x (map (pair (btype b)) (bdata b)) <> []).
  { intros E'. apply (f_equal (@length Z)) in E'. rewrite ends_length, map_length in E'.
    unfold nonempty_block in Hb. destruct (bdata b); [congruence|discriminate]. }
  rewrite (IH (last (ends x (map (pair (btype b)) (bdata b))) 0%Z)); auto. cbn [bind]. f_equal. f_equal. f_equal.
  clear -Hne. revert Hne. generalize (ends x (map (pair (btype b)) (bdata b))) as l.
  induction l as [|y [|z l] IH]; intros; auto; [congruence|]. apply IH. discriminate.
Qed.

Lemma offsets_vtu_ok bs : bs <> [] -> Forall rectangular bs -> Forall nonempty_block bs ->
  offsets_vtu bs = Ok (ends 0 (all_cells bs)).
Proof.
  destruct bs as [|b bs]; [congruence|]. intros _ H He. inversion H as [|? ? (n & Hn) H']; subst.
  inversion He as [|? ? Hb He']; subst. cbn [offsets_vtu].
  rewrite (vtu_block_ends b n Hn). rewrite all_cells_cons, ends_app.
  rewrite (offsets_vtu_from_ok (last (ends 0 (map (pair (btype b)) (bdata b))) 0%Z)); auto.
  intros E'. apply (f_equal (@length Z)) in E'. rewrite ends_length, map_length in E'.
  unfold nonempty_block in Hb. destruct (bdata b); [congruence|discriminate].
Qed.

Lemma write_conn_ok bs : Forall block_ok bs -> write_conn bs = Ok (flat_map enc (all_cells bs)).
Proof.
  intros H. unfold write_conn.
  rewrite (proj2 (mapM_Forall2 _ _ (map (fun b => flat_map enc (map (pair (btype b)) (bdata b))) bs))).
  - cbn [bind]. f_equal. induction H as [|b bs Hb H IH]; [reflexivity|].
    cbn [map concat]. rewrite IH, all_cells_cons, flat_map_app. reflexivity.
  - induction H as [|b bs Hb H IH]; constructor; auto. rewrite block_rows by auto. cbn [bind].
    f_equal. rewrite flat_map_map. rewrite flat_map_concat_map. reflexivity.
Qed.

Lemma write_types_ok bs : Forall block_ok bs -> write_types bs = Ok (map code_of (all_cells bs)).
Proof.
  intros H. unfold write_types.
  rewrite (proj2 (mapM_Forall2 _ _ (map (fun b => map code_of (map (pair (btype b)) (bdata b))) bs))).
  - cbn [bind]. f_equal. induction H as [|b bs Hb H IH]; [reflexivity|].
    cbn [map concat]. rewrite IH, all_cells_cons, map_app. reflexivity.
  - induction H as [|b bs Hb H IH]; constructor; auto. rewrite block_code by auto. cbn [of_option bind].
    f_equal. rewrite map_map. symmetry. unfold blen. apply map_const_repeat. reflexivity.
Qed.

(** ** Reader *)
Lemma slice_slice {A} (l : list A) s e a b : b <= e - s -> slice a b (slice s e l) = slice (s + a) (s + b) l.
Proof.
  intros H. apply nth_error_ext. intros i. rewrite !nth_error_slice.
  destruct (Nat.ltb_spec i (b - a)), (Nat.ltb_spec i (s + b - (s + a))); try lia; auto.
  destruct (Nat.ltb_spec (a + i) (e - s)); [|lia]. f_equal. lia.
Qed.

Lemma diffs_combine l : diffs l = map (fun xy => (snd xy - fst xy)%Z) (combine l (tl l)).
Proof.
  induction l as [|x [|y l] IH]; auto. cbn [tl] in IH.
  change (diffs (x :: y :: l)) with ((y - x)%Z :: diffs (y :: l)). rewrite IH. reflexivity.
Qed.

Lemma where_map {A B} (f : A -> B) p i l : where_from p i (map f l) = where_from (fun x => p (f x)) i l.
Proof. revert i; induction l as [|x l IH]; intros i; cbn; auto. now rewrite IH. Qed.

Lemma where_ext {A} (p q : A -> bool) i l : (forall x, p x = q x) -> where_from p i l = where_from q i l.
Proof. intros H. revert i; induction l as [|x l IH]; intros i; cbn; auto. now rewrite H, IH. Qed.

Lemma special_bounds sizes :
  let c := [0] ++ map S (where_ (fun d => negb (Z.eqb d 0)) (diffs sizes)) ++ [length sizes] in
  combine c (tl c) = bounds Z.eqb sizes.
Proof.
  cbn zeta. replace (map S (where_ (fun d => negb (Z.eqb d 0)) (diffs sizes))) with (breaks Z.eqb sizes).
  - unfold bounds. cbn [app tl]. generalize (breaks Z.eqb sizes) as br. generalize 0 as h.
    intros h br. revert h; induction br as [|x br IH]; intros h; [reflexivity|].
    cbn [app]. rewrite !combine_cons2. now rewrite IH.
  - unfold breaks. f_equal. rewrite diffs_combine. unfold where_. rewrite where_map. apply where_ext.
    intros [x y]. cbn. destruct (Z.eqb_spec x y), (Z.eqb_spec (y - x) 0); auto; lia.
Qed.

Lemma diffs_ends k L : diffs (k :: ends k L) = map len_of L.
Proof.
  revert k; induction L as [|tc L IH]; intros k; [reflexivity|].
  cbn [ends map]. change (diffs (k :: (k + len_of tc)%Z :: ends (k + len_of tc) L))
    with ((k + len_of tc - k)%Z :: diffs ((k + len_of tc)%Z :: ends (k + len_of tc) L)).
  rewrite IH. f_equal. lia.
Qed.

Lemma skipn_ends k L s : Forall cell_ok L -> s <= length L -> skipn s (ends k L) = ends (k + pos L s) (skipn s L).
Proof.
  intros H. revert k s; induction H as [|tc L Htc HL IH]; intros k s Hs.
  - destruct s; cbn; auto.
  - destruct s as [|s]; cbn [skipn].
    + unfold pos. cbn. now rewrite Z.add_0_r.
    + cbn [ends skipn]. cbn in Hs. rewrite IH by lia. f_equal. unfold pos. cbn [firstn flat_map].
      rewrite app_length. unfold enc at 2. rewrite vperm_length by auto. unfold len_of. lia.
Qed.

Lemma firstn_ends k L n : firstn n (ends k L) = ends k (firstn n L).
Proof. revert k n; induction L as [|tc L IH]; intros k [|n]; cbn; auto. now rewrite IH. Qed.

Lemma Forall_slice {A} (P : A -> Prop) s e l : Forall P l -> Forall P (slice s e l).
Proof.
  intros H. unfold slice. apply Forall_forall. intros x Hx. rewrite Forall_forall in H. apply H.
  apply In_nth_error in Hx. destruct Hx as [i Hi]. rewrite nth_error_firstn', nth_error_skipn' in Hi.
  destruct (Nat.ltb i (e - s)); [|discriminate]. eapply nth_error_In; eauto.
Qed.

Lemma regroup_uniform t n rows : rows <> [] -> Forall (fun c : cell => length c = n) rows ->
  regroup (map (pair t) rows) = [Block t rows].
Proof.
  destruct rows as [|c cs]; [congruence|]. intros _ H. inversion H; subst.
  rewrite <- (app_nil_r (map _ _)). rewrite regroup_prepend; auto. discriminate.
Qed.

Definition run_good (L : list (string * cell)) (se : nat * nat) (R : list (block * (nat * nat))) : Prop :=
  map fst R = regroup (slice (fst se) (snd se) L) /\
  forall V (d : list V), length d = length L ->
    pieces (map snd R) d = split_lens (map blen (regroup (slice (fst se) (snd se) L))) (slice (fst se) (snd se) d).

Lemma slice_uniform (L : list (string * cell)) s e t : (forall i, s <= i < e -> exists c, nth_error L i = Some (t, c)) ->
  slice s e L = map (pair t) (slice s e (map snd L)).
Proof.
  intros H. rewrite <- map_slice, map_map. rewrite <- (map_id (slice s e L)) at 1. apply map_ext_in.
  intros [t' c] Hin. cbn. apply In_nth_error in Hin. destruct Hin as [i Hi]. rewrite nth_error_slice in Hi.
  destruct (Nat.ltb_spec i (e - s)); [|discriminate]. destruct (H (s + i) ltac:(lia)) as [c' Hc'].
  rewrite Hc' in Hi. now injection Hi as -> ->.
Qed.

Lemma regular_ok L s e t n : Forall cell_ok L -> s < e -> e <= length L -> In (t, n) vtk_fixed ->
  (forall i, s <= i < e -> exists c, nth_error L i = Some (t, c) /\ length c = n) ->
  exists R, read_regular (flat_map enc L) (ends 0 L) (vcode t) t (s, e) = Ok R /\ run_good L (s, e) R.
Proof.
  intros HL Hse Hle Hfix Hu. apply fixed_get in Hfix.
  assert (Hsl : slice s e L = map (pair t) (slice s e (map snd L))).
  { apply slice_uniform. intros i Hi. destruct (Hu i Hi) as (c & Hc & _). eauto. }
  assert (Hreg : regroup (slice s e L) = [Block t (slice s e (map snd L))]).
  { rewrite Hsl. apply (regroup_uniform t n).
    - intros E. apply (f_equal (@length cell)) in E. rewrite slice_length in E; [cbn in E; lia|now rewrite map_length].
    - apply Forall_forall. intros c Hin. apply In_nth_error in Hin. destruct Hin as [i Hi].
      rewrite nth_error_slice in Hi. destruct (Nat.ltb_spec i (e - s)); [|discriminate].
      destruct (Hu (s + i) ltac:(lia)) as (c' & Hc' & Hl). rewrite nth_error_map, Hc' in Hi. cbn in Hi. congruence. }
  exists [(Block t (slice s e (map snd L)), (s, e))]. split.
  - unfold read_regular. rewrite (fi_nn _ _ Hfix). cbn [of_option bind].
    assert (Hrows : mapM (fun off => gather (flat_map enc L) (index_row (vtk_to_meshio_order (vcode t)) (Z.of_nat n) (off - Z.of_nat n)))
              (slice s e (ends 0 L)) = Ok (slice s e (map snd L))).
    { apply mapM_nth.
      - rewrite !slice_length; auto; [now rewrite map_length|now rewrite ends_length].
      - intros i x y Hx Hy. rewrite nth_error_slice in Hx. rewrite nth_error_slice in Hy.
        destruct (Nat.ltb_spec i (e - s)); [|discriminate].
        destruct (Hu (s + i) ltac:(lia)) as (c & Hc & Hl).
        rewrite nth_error_map, Hc in Hy. cbn in Hy. injection Hy as <-.
        rewrite ends_nth in Hx by (auto; lia). injection Hx as <-. cbn [Z.add].
        pose proof (decode_51 _ _ _ HL Hc) as Hd. unfold len_of in Hd. cbn [snd] in Hd. rewrite Hl in Hd. exact Hd. }
    rewrite Hrows. cbn [bind]. pose proof (fi_dim _ _ Hfix) as Hdim.
    destruct (cellblock_dim t); [reflexivity|discriminate].
  - split; cbn [map fst snd].
    + now rewrite Hreg.
    + intros V d Hd. rewrite Hreg. unfold pieces. cbn [map split_lens fst snd]. f_equal. unfold blen. cbn [bdata].
      rewrite slice_length by (rewrite map_length; lia). symmetry. apply firstn_all2. rewrite slice_length; lia.
Qed.

Lemma special_ok L s e t : Forall cell_ok L -> s < e -> e <= length L -> In t vtk_varying ->
  (forall i, s <= i < e -> exists c, nth_error L i = Some (t, c)) ->
  exists R, read_special (flat_map enc L) (ends 0 L) (vcode t) t (s, e) = Ok R /\ run_good L (s, e) R.
Proof.
  intros HL Hse Hle Hvar Hu. apply varying_get in Hvar.
  assert (Hsl : slice s e L = map (pair t) (slice s e (map snd L))) by (now apply slice_uniform).
  set (rows := slice s e (map snd L)) in *.
  set (sizes := map (fun c : cell => Z.of_nat (length c)) rows).
  assert (Hlr : length rows = e - s) by (unfold rows; rewrite slice_length; auto; now rewrite map_length).
  assert (Hsz : sizes <> []).
  { intros E. apply (f_equal (@length Z)) in E. unfold sizes in E. rewrite map_length in E. cbn in E. lia. }
  set (rs := runs Z.eqb sizes).
  assert (Htot : length rows = sum_nat (map snd rs)) by (unfold rs, sizes; rewrite runs_total, map_length; reflexivity).
  assert (Hex : expand rs = sizes) by (apply expand_runs, Zeqb_spec').
  assert (Hreg : blocks_of (fun _ => t) rs rows = regroup (slice s e L)).
  { rewrite (grouped_regroup (blocks_of (fun _ => t) rs rows)).
    - f_equal. rewrite blocks_of_cells by auto. rewrite Hex, Hsl. clear. unfold sizes.
      induction rows as [|r rows IH]; cbn; auto. now rewrite IH.
    - apply (blocks_of_grouped (fun _ => t) Z.to_nat); auto.
      + intros a n. apply runs_pos.
      + apply runs_alternating, Zeqb_spec'.
      + intros a b Ha Hb _ E.
        assert (G : forall x, In x (map fst rs) -> (0 <= x)%Z).
        { intros x Hx. assert (In x (expand rs)).
          { unfold expand. apply in_flat_map. apply in_map_iff in Hx.
            destruct Hx as ([a' n] & <- & Hin). exists (a', n). split; auto. cbn.
            assert (0 < n) by (eapply runs_pos; eauto). destruct n; [lia|]. now left. }
          rewrite Hex in H. unfold sizes in H. apply in_map_iff in H. destruct H as (c & <- & _). lia. }
        pose proof (G a Ha). pose proof (G b Hb). lia.
      + rewrite Hex. unfold sizes. clear. induction rows as [|r rows IH]; constructor; auto. now rewrite Nat2Z.id. }
  exists (map (fun ab => (Block t (slice (fst ab) (snd ab) rows), (s + fst ab, s + snd ab))) (spans 0 rs)).
  split.
  - unfold read_special.
    assert (Hfn : (if Nat.eqb s 0 then Ok 0%Z else of_option IndexError (nth_error (ends 0 L) (s - 1))) = Ok (pos L s)).
    { destruct (Nat.eqb_spec s 0) as [->|Hs]; [reflexivity|]. rewrite ends_nth by (auto; lia).
      cbn [of_option Z.add]. do 2 f_equal. lia. }
    rewrite Hfn. cbn [bind].
    assert (Hst : slice s e (ends 0 L) = ends (pos L s) (slice s e L)).
    { unfold slice. rewrite skipn_ends by (auto; lia). rewrite firstn_ends. reflexivity. }
    rewrite Hst. rewrite diffs_ends.
    assert (Hsz' : map len_of (slice s e L) = sizes).
    { rewrite Hsl, map_map. unfold sizes. apply map_ext. reflexivity. }
    rewrite Hsz', special_bounds. rewrite (bounds_spans Z.eqb Zeqb_spec') by auto. fold rs.
    apply mapM_Forall2.
    assert (G : forall l, (forall p, In p l -> In p (spans 0 rs)) ->
      Forall2 (fun x y => read_special_sub (flat_map enc L) (vcode t) t s (pos L s :: ends (pos L s) (slice s e L)) sizes x = Ok y)
        l (map (fun ab => (Block t (slice (fst ab) (snd ab) rows), (s + fst ab, s + snd ab))) l)).
    2: { apply G. auto. }
    induction l as [|[a b] l IH]; intros Hin; constructor; [|apply IH; intros; apply Hin; now right].
    specialize (Hin (a, b) (or_introl eq_refl)). apply (span_const Z.eqb Zeqb_spec') in Hin.
    destruct Hin as (Hab & Hbl & z & Hz). unfold read_special_sub. cbn [fst snd].
    pose proof (Hz a ltac:(lia)) as Hza. rewrite Hza. cbn [of_option bind].
    assert (Hbl' : b <= e - s) by (unfold sizes in Hbl; rewrite map_length in Hbl; lia).
    assert (Hrows : mapM (fun i => do off <- of_option IndexError (nth_error (pos L s :: ends (pos L s) (slice s e L)) (i + 1));
               gather (flat_map enc L) (index_row (vtk_to_meshio_order (vcode t)) z (off - z))) (seq a (b - a)) = Ok (slice a b rows)).
    { apply mapM_nth.
      - rewrite seq_length, slice_length; lia.
      - intros i x y Hx Hy. assert (Hi := nth_error_lt _ _ _ Hx). rewrite seq_length in Hi.
        rewrite (nth_error_nth' _ 0) in Hx by (rewrite seq_length; lia).
        rewrite seq_nth in Hx by lia. injection Hx as <-.
        rewrite Nat.add_1_r. cbn [nth_error].
        rewrite ends_nth by (first [now apply Forall_slice | rewrite slice_length; lia]).
        cbn [of_option bind].
        unfold rows in Hy. rewrite slice_slice in Hy by lia. rewrite nth_error_slice in Hy.
        destruct (Nat.ltb_spec i (s + b - (s + a))); [|lia].
        destruct (Hu (s + (a + i)) ltac:(lia)) as (c & Hc).
        replace (s + a + i) with (s + (a + i)) in Hy by lia.
        rewrite nth_error_map, Hc in Hy. cbn in Hy. injection Hy as <-.
        assert (Hlen : z = Z.of_nat (length c)).
        { pose proof (Hz (a + i) ltac:(lia)) as Hzi. unfold sizes, rows in Hzi.
          rewrite nth_error_map, nth_error_slice in Hzi. destruct (Nat.ltb_spec (a + i) (e - s)); [|lia].
          rewrite nth_error_map, Hc in Hzi. cbn in Hzi. congruence. }
        pose proof (decode_51 _ _ _ HL Hc) as Hd. unfold len_of in Hd. cbn [snd] in Hd.
        rewrite <- Hlen in Hd. unfold code_of in Hd. cbn [fst] in Hd. rewrite <- Hd. do 3 f_equal.
        (* positions *)
        unfold pos. rewrite <- Nat2Z.inj_add, <- app_length, <- flat_map_app. do 4 f_equal.
        unfold slice. rewrite firstn_firstn. rewrite Nat.min_l by lia.
        replace (S (s + (a + i))) with (s + S (a + i)) by lia. clear.
        revert L. induction s as [|s IH]; intros L; [reflexivity|]. destruct L as [|x L].
        + reflexivity.
        + cbn [firstn skipn Nat.add app]. f_equal. apply IH. }
    rewrite Hrows. cbn [bind]. pose proof (vi_dim _ Hvar) as Hdim.
    destruct (cellblock_dim t); [reflexivity|discriminate].
  - split; cbn [fst snd].
    + rewrite map_map. cbn [fst]. rewrite <- Hreg.
      apply (bounds_blocks Z.eqb Zeqb_spec' (fun _ => t) sizes rows).
      * unfold sizes. now rewrite map_length.
      * reflexivity.
    + intros V d Hd. rewrite map_map. cbn [snd]. rewrite <- Hreg.
      unfold pieces. rewrite map_map. cbn [fst snd].
      change (split_lens (map blen (blocks_of (fun _ : Z => t) rs rows)) (slice s e d))
        with (data_for (blocks_of (fun _ : Z => t) rs rows) (slice s e d)).
      rewrite blocks_of_data; [|auto|rewrite slice_length; lia].
      pose proof (slices_spans (slice s e d) rs 0) as Hsp. cbn [skipn] in Hsp. rewrite <- Hsp.
      apply map_ext_in. intros [a b] Hin. cbn [fst snd].
      apply (span_const Z.eqb Zeqb_spec') in Hin. destruct Hin as (Hab & Hbl & _).
      unfold sizes in Hbl. rewrite map_length in Hbl. symmetry. apply slice_slice. lia.
Qed.

Lemma run_ok L se : Forall cell_ok L -> In se (spans 0 (runs Z.eqb (map code_of L))) ->
  exists R, read_run (flat_map enc L) (ends 0 L) (map code_of L) se = Ok R /\ run_good L se R.
Proof.
  intros HL Hin. destruct se as [s e]. apply (span_const Z.eqb Zeqb_spec') in Hin.
  destruct Hin as (Hse & Hle & a & Ha). rewrite map_length in Hle.
  pose proof (Ha s ltac:(lia)) as Has. unfold read_run. cbn [fst]. rewrite Has. cbn [of_option bind].
  apply nth_map_inv in Has. destruct Has as (tcs & Htcs & Hcode).
  assert (Hoks : cell_ok tcs) by (rewrite Forall_forall in HL; apply HL; eapply nth_error_In; eauto).
  assert (Hu : forall i, s <= i < e -> exists c, nth_error L i = Some (fst tcs, c) /\ cell_ok (fst tcs, c)).
  { intros i Hi. pose proof (Ha i Hi) as Hai. apply nth_map_inv in Hai. destruct Hai as (tc & Htc & Hc).
    assert (Hok : cell_ok tc) by (rewrite Forall_forall in HL; apply HL; eapply nth_error_In; eauto).
    assert (E : fst tc = fst tcs).
    { rewrite <- (vname_code tc), <- (vname_code tcs) by auto. unfold code_of in *. congruence. }
    exists (snd tc). rewrite <- E. destruct tc; auto. }
  subst a. unfold code_of at 1. rewrite cell_ok_name by auto.
  destruct Hoks as [Hf|Hv].
  - pose proof (fixed_get _ _ Hf) as Hi. rewrite (fi_reg _ _ Hi).
    apply (regular_ok L s e (fst tcs) (length (snd tcs))); auto.
    intros i Hii. destruct (Hu i Hii) as (c & Hc & [Hok|Hok]); exists c; split; auto; cbn in Hok.
    + pose proof (fi_nn _ _ (fixed_get _ _ Hok)). pose proof (fi_nn _ _ Hi). congruence.
    + pose proof (vi_spec _ (varying_get _ Hok)). pose proof (fi_reg _ _ Hi). congruence.
  - rewrite (vi_spec _ (varying_get _ Hv)). apply special_ok; auto.
    intros i Hii. destruct (Hu i Hii) as (c & Hc & _). eauto.
Qed.

(** Assembly *)
Lemma regroup_app L1 L2 t : Forall (fun tc => fst tc = t) L1 ->
  match L2 with [] => True | tc :: _ => fst tc <> t end ->
  regroup (L1 ++ L2) = regroup L1 ++ regroup L2.
Proof.
  induction 1 as [|[t1 c] L1 H1 HL IH]; intros H2; [reflexivity|]. cbn in H1. subst t1.
  cbn [app regroup]. rewrite IH by auto. clear IH.
  destruct L1 as [|[t1 c1] L1].
  - cbn [regroup app]. pose proof (regroup_headkey L2) as Hk.
    destruct (regroup L2) as [|[t' [|c' cs]] bs]; try reflexivity.
    destruct L2 as [|[t2 c2] L2]; cbn in Hk; [discriminate|]. injection Hk as -> _.
    cbn in H2. destruct (String.eqb_spec t t2); [congruence|reflexivity].
  - pose proof (regroup_headkey ((t1, c1) :: L1)) as Hk.
    destruct (regroup ((t1, c1) :: L1)) as [|[t' [|c' cs]] bs]; cbn in Hk; try discriminate.
    cbn [app]. destruct (String.eqb t t' && Nat.eqb (length c) (length c')); reflexivity.
Qed.

Lemma split_lens_app {A} l1 l2 (d : list A) :
  split_lens (l1 ++ l2) d = split_lens l1 (firstn (sum_nat l1) d) ++ split_lens l2 (skipn (sum_nat l1) d).
Proof.
  revert d; induction l1 as [|n l1 IH]; intros d; [reflexivity|].
  cbn [app split_lens sum_nat]. rewrite IH. rewrite firstn_firstn, Nat.min_l by lia.
  cbn [app]. f_equal. f_equal.
  - f_equal. rewrite <- (firstn_skipn_comm (sum_nat l1) n d) || rewrite firstn_skipn_comm. reflexivity.
  - f_equal. rewrite skipn_skipn. reflexivity.
Qed.

Lemma expand_inv {A} (a : A) n rs (L : list (string * cell)) (f : string * cell -> A) :
  expand ((a, n) :: rs) = map f L ->
  Forall (fun tc => f tc = a) (firstn n L) /\ expand rs = map f (skipn n L) /\ length (firstn n L) = n.
Proof.
  intros H. change (expand ((a, n) :: rs)) with (repeat a n ++ expand rs) in H.
  assert (Hl : n <= length L).
  { apply (f_equal (@length A)) in H. rewrite app_length, repeat_length, map_length in H. lia. }
  rewrite <- (firstn_skipn n L) in H at 1. rewrite map_app in H.
  assert (Hn : length (firstn n L) = n) by (rewrite firstn_length; lia).
  apply app_inj_length in H. 2: now rewrite repeat_length, map_length.
  destruct H as [H1 H2]. repeat split; auto.
  clear -H1 Hn. revert H1. rewrite <- Hn at 1. clear Hn. induction (firstn n L) as [|x l IH]; cbn; intros H; constructor.
  - congruence.
  - apply IH. congruence.
Qed.

Lemma assemble rs L : Forall cell_ok L -> expand rs = map code_of L -> alternating rs ->
  (forall a n, In (a, n) rs -> 0 < n) ->
  concat (map regroup (split_lens (map snd rs) L)) = regroup L /\
  forall V (d : list V), length d = length L ->
   concat (map (fun Ld => split_lens (map blen (regroup (fst Ld))) (snd Ld))
      (combine (split_lens (map snd rs) L) (split_lens (map snd rs) d))) = split_lens (map blen (regroup L)) d.
Proof.
  revert L; induction rs as [|[a n] rs IH]; intros L HL Hex Halt Hpos.
  - destruct L as [|tc L]; [|discriminate]. split; [reflexivity|]. intros V d Hd. destruct d; [reflexivity|discriminate].
  - destruct (expand_inv _ _ _ _ _ Hex) as (H1 & H2 & H3).
    assert (HL1 : Forall cell_ok (firstn n L)) by (rewrite <- (firstn_skipn n L), Forall_app in HL; tauto).
    assert (HL2 : Forall cell_ok (skipn n L)) by (rewrite <- (firstn_skipn n L), Forall_app in HL; tauto).
    destruct (IH (skipn n L)) as [IH1 IH2]; auto.
    { now destruct Halt. }
    { intros b m Hb. apply (Hpos b m). now right. }
    assert (Happ : regroup L = regroup (firstn n L) ++ regroup (skipn n L)).
    { rewrite <- (firstn_skipn n L) at 1. apply (regroup_app _ _ (vname a)).
      - rewrite Forall_forall in *. intros tc Hin. rewrite <- (H1 tc Hin). unfold code_of. symmetry. auto using vname_code.
      - destruct (skipn n L) as [|tc L2] eqn:E; auto. intros Et.
        assert (Hc : code_of tc = a).
        { destruct rs as [|[b m] rs]; [discriminate|].
          assert (n <> 0) by (specialize (Hpos a n (or_introl eq_refl)); lia).
          destruct (firstn n L) as [|tc1 L1] eqn:E1; [cbn in H3; lia|].
          inversion H1 as [|? ? Hc1 _]; subst. inversion HL1; inversion HL2; subst.
          unfold code_of in *. rewrite vname_code in Et by auto. now rewrite Et. }
        destruct rs as [|[b m] rs]; [discriminate|].
        assert (0 < m) by (apply (Hpos b m); right; now left). destruct m; [lia|].
        cbn in H2. injection H2 as Hb _. cbn in Halt. destruct Halt as [Hne _]. congruence. }
    split.
    + cbn [map snd split_lens concat]. rewrite IH1. now rewrite Happ.
    + intros V d Hd. cbn [map snd split_lens combine concat fst]. rewrite IH2 by (rewrite !skipn_length; lia).
      rewrite Happ, map_app, split_lens_app.
      assert (Hs : sum_nat (map blen (regroup (firstn n L))) = n).
      { rewrite <- all_cells_length, regroup_cells. exact H3. }
      rewrite Hs. reflexivity.
Qed.

Lemma mapM_exists {A B} (f : A -> result B) (P : A -> B -> Prop) l :
  (forall x, In x l -> exists y, f x = Ok y /\ P x y) -> exists ys, mapM f l = Ok ys /\ Forall2 P l ys.
Proof.
  induction l as [|x l IH]; intros H; [exists []; split; [reflexivity|constructor]|].
  destruct (H x (or_introl eq_refl)) as (y & Hy & Py). destruct IH as (ys & Hys & Pys).
  { intros z Hz. apply H. now right. }
  exists (y :: ys). split; [|constructor; auto]. cbn. now rewrite Hy, Hys.
Qed.

Lemma vtk_cells_from_data_ok L : Forall cell_ok L -> L <> [] ->
  exists sp, vtk_cells_from_data (flat_map enc L) (ends 0 L) (map code_of L) = Ok (regroup L, sp) /\
    forall V (d : list V), length d = length L -> pieces sp d = data_for (regroup L) d.
Proof.
  intros HL Hne. unfold vtk_cells_from_data. rewrite ends_length, map_length, Nat.eqb_refl. cbn [negb].
  rewrite (bounds_spans Z.eqb Zeqb_spec') by (destruct L; [congruence|discriminate]).
  destruct (mapM_exists (read_run (flat_map enc L) (ends 0 L) (map code_of L)) (run_good L)
              (spans 0 (runs Z.eqb (map code_of L)))) as (Rs & HRs & HF).
  { intros se Hin. now apply run_ok. }
  rewrite HRs. cbn [bind]. exists (map snd (concat Rs)).
  destruct (assemble (runs Z.eqb (map code_of L)) L HL) as [A1 A2].
  { apply expand_runs, Zeqb_spec'. } { apply runs_alternating, Zeqb_spec'. } { intros a n. apply runs_pos. }
  assert (S1 : split_lens (map snd (runs Z.eqb (map code_of L))) L =
    map (fun p => slice (fst p) (snd p) L) (spans 0 (runs Z.eqb (map code_of L)))).
  { rewrite slices_spans. reflexivity. }
  split.
  - do 2 f_equal. rewrite <- A1, S1, map_map. clear -HF.
    induction HF as [|se R l Rs [H1 _] HF IH]; [reflexivity|]. cbn [map concat]. rewrite map_app, IH, H1. reflexivity.
  - intros V d Hd. unfold data_for. rewrite <- (A2 V d Hd), S1.
    assert (S2 : split_lens (map snd (runs Z.eqb (map code_of L))) d =
      map (fun p => slice (fst p) (snd p) d) (spans 0 (runs Z.eqb (map code_of L)))).
    { rewrite slices_spans. reflexivity. }
    rewrite S2. clear -HF Hd.
    induction HF as [|se R l Rs [_ H2] HF IH]; [reflexivity|]. cbn [map concat combine].
    unfold pieces in *. rewrite !map_app, IH. f_equal. cbn [fst snd]. now apply H2.
Qed.

Lemma all_cells_ne bs : bs <> [] -> Forall nonempty_block bs -> all_cells bs <> [].
Proof.
  destruct bs as [|b bs]; [congruence|]. intros _ H. inversion H as [|? ? Hb _]; subst.
  rewrite all_cells_cons. unfold nonempty_block in Hb. destruct (bdata b); [congruence|discriminate].
Qed.

Lemma ends_last L : Forall cell_ok L -> last (0%Z :: ends 0 L) 0%Z = Z.of_nat (length (flat_map enc L)).
Proof.
  intros HL.
  assert (G : forall k d, last (k :: ends k L) d = (k + Z.of_nat (length (flat_map enc L)))%Z).
  { induction HL as [|tc L Htc HL IH]; intros k d; [cbn; lia|].
    cbn [ends flat_map]. change (last (k :: (k + len_of tc)%Z :: ends (k + len_of tc) L) d)
      with (last ((k + len_of tc)%Z :: ends (k + len_of tc) L) d).
    rewrite IH, app_length. unfold enc at 2. rewrite vperm_length by auto. unfold len_of. lia. }
  now rewrite G.
Qed.

Lemma vtk51_roundtrip bs : bs <> [] -> Forall block_ok bs -> Forall nonempty_block bs ->
  exists conn offs offs' types sp,
    write_conn bs = Ok conn /\ write_types bs = Ok types /\ offsets_51 bs = Ok offs /\
    check_offsets_51 conn offs = Ok offs' /\
    vtk_cells_from_data conn offs' types = Ok (regroup (all_cells bs), sp) /\
    (forall V (d : list V), length d = length (all_cells bs) ->
      pieces sp d = data_for (regroup (all_cells bs)) d).
Proof.
  intros Hne Hok He. pose proof (blocks_ok_cells _ Hok) as HL.
  destruct (vtk_cells_from_data_ok (all_cells bs) HL (all_cells_ne _ Hne He)) as (sp & H1 & H2).
  exists (flat_map enc (all_cells bs)), (0%Z :: ends 0 (all_cells bs)), (ends 0 (all_cells bs)),
    (map code_of (all_cells bs)), sp.
  split; [now apply write_conn_ok|]. split; [now apply write_types_ok|]. split.
  { unfold offsets_51. rewrite offsets_51_from_ok; auto. eapply Forall_impl; [|exact Hok]. apply block_rect. }
  split; [|split; auto].
  unfold check_offsets_51. cbn [Z.eqb negb]. rewrite ends_last, Z.eqb_refl by auto. reflexivity.
Qed.

Lemma vtu_cells_roundtrip bs : bs <> [] -> Forall block_ok bs -> Forall nonempty_block bs ->
  exists conn offs types sp,
    write_conn bs = Ok conn /\ write_types bs = Ok types /\ offsets_vtu bs = Ok offs /\
    vtk_cells_from_data conn offs types = Ok (regroup (all_cells bs), sp) /\
    (forall V (d : list V), length d = length (all_cells bs) ->
      pieces sp d = data_for (regroup (all_cells bs)) d).
Proof.
  intros Hne Hok He. pose proof (blocks_ok_cells _ Hok) as HL.
  destruct (vtk_cells_from_data_ok (all_cells bs) HL (all_cells_ne _ Hne He)) as (sp & H1 & H2).
  exists (flat_map enc (all_cells bs)), (ends 0 (all_cells bs)), (map code_of (all_cells bs)), sp.
  split; [now apply write_conn_ok|]. split; [now apply write_types_ok|]. split; auto.
  apply offsets_vtu_ok; auto. eapply Forall_impl; [|exact Hok]. apply block_rect.
Qed.
