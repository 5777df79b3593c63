From Coq Require Import Lia.
From Verif.Lib Require Import Base Facts Facts2 Text TextFacts Lines LinesFacts.
From Verif.Model Require Import Core Tables Abaqus Snoc Avsucd.
From Verif.Spec Require Import Core Blocks Mdpa Avsucd.
From Verif.Spec Require Flac3d.
From Verif.Proofs Require Import Ply Gmsh Mdpa Abaqus Blocks Snoc CoreMisc Flac3d Flac3dSets AbaqusFile Permas.
Local Arguments str_of_nat : simpl never.
Local Arguments str_of_Z : simpl never.

(** ** Types and orders *)
Definition avs_order (t : string) : list nat := match dget t meshio_to_avsucd_order with Some o => o | None => [] end.
Definition avs_width (t : string) : nat := match find (fun kv => String.eqb (fst kv) t) avs_types with Some (_, w) => w | None => 0 end.
Lemma avs_facts t w : In (t, w) avs_types -> exists code p,
  dget t meshio_to_avsucd_order = Some (avs_order t) /\ dget t meshio_to_avsucd_type = Some code /\ word code = true /\
  dget code avsucd_to_meshio_type = Some t /\ dget t avsucd_to_meshio_order = Some p /\ avs_width t = w /\
  length (avs_order t) = w /\ Forall (fun i => i < w) (avs_order t) /\ Forall (fun i => i < w) p /\
  map (fun i => nth i (avs_order t) 0) p = seq 0 w.
Proof.
  intros H. cbn in H. repeat (destruct H as [H|H]; [injection H as <- <-; eexists _, _;
    do 7 (split; [vm_compute; reflexivity|]); split; [repeat constructor; lia|]; split; [vm_compute; repeat constructor; lia|vm_compute; reflexivity]|]); destruct H.
Qed.
Lemma select_all (c : cell) : Flac3d.select (seq 0 (length c)) c = c.
Proof.
  unfold Flac3d.select. induction c as [|x c IH]; [reflexivity|]. cbn [length seq map nth]. f_equal. rewrite <- seq_shift, map_map. exact IH.
Qed.
Lemma select_back t w c p : In (t, w) avs_types -> length c = w -> dget t avsucd_to_meshio_order = Some p ->
  permute p (Flac3d.select (avs_order t) c) = Some c.
Proof.
  intros H L Hp. destruct (avs_facts _ _ H) as (code & q & _ & _ & _ & _ & E & _ & Lo & _ & Fp & M). assert (q = p) by congruence. subst q.
  rewrite permute_select.
  - rewrite select_select by (now rewrite Lo). rewrite M, <- L, select_all. reflexivity.
  - unfold Flac3d.select. rewrite map_length, Lo. exact Fp.
Qed.

(** ** Cells *)
Lemma cell_line_back n t w c i m material : In (t, w) avs_types -> length c = w -> Forall (fun i => (0 <= i < Z.of_nat n)%Z) c ->
  nth_error material i = Some m -> exists code line,
  dget t meshio_to_avsucd_type = Some code /\ avs_cell_line t code (avs_order t) i material c = Ok line /\
  read_avs_cell (id_map (map (fun k => Z.of_nat (S k)) (seq 0 n))) line = Ok (Z.of_nat (S i), m, (t, Flac3d.select (avs_order t) c)).
Proof.
  intros Ht Hw Hc Hm. destruct (avs_facts _ _ Ht) as (code & p & _ & Ec & Wc & Eb & _ & _ & Lo & Fo & _).
  exists code. unfold avs_cell_line. rewrite permute_select by (now rewrite Hw). cbn [of_option bind]. rewrite Hm. cbn [of_option bind]. eexists. split; [exact Ec|]. split; [reflexivity|].
  set (row := Flac3d.select (avs_order t) c). assert (Hv : Forall (fun i => (0 <= i < Z.of_nat n)%Z) row) by (apply select_valid; [auto|now rewrite Hw]).
  unfold read_avs_cell, row_line. rewrite split_ws_join.
  2:{ cbn [forallb app]. rewrite word_str_of_nat, word_str_of_Z, Wc. cbn [andb]. rewrite <- (map_map (fun i => (i + 1)%Z) str_of_Z). apply words_ints. }
  cbn [nth_error app of_option bind skipn]. rewrite str_of_nat_Z, !parse_Z_str_of_Z. cbn [of_option bind]. rewrite Eb. cbn [of_option bind].
  rewrite <- (map_map (fun i => (i + 1)%Z) str_of_Z), parse_ints_ok. cbn [bind].
  destruct (gids_all n row Hv) as (ks & -> & Ek). cbn [bind]. now rewrite Ek.
Qed.

Definition entry (material : list Z) (jtc : nat * (string * cell)) : Z * Z * (string * cell) :=
  (Z.of_nat (S (fst jtc)), nth (fst jtc) material 0%Z, (fst (snd jtc), Flac3d.select (avs_order (fst (snd jtc))) (snd (snd jtc)))).
Lemma rows_lines n t w code material : In (t, w) avs_types -> dget t meshio_to_avsucd_type = Some code -> forall rows,
  Forall (fun c => length c = w /\ Forall (fun i => (0 <= i < Z.of_nat n)%Z) c) rows -> forall i, i + length rows <= length material ->
  exists ls, mapM (fun jc => avs_cell_line t code (avs_order t) (fst jc) material (snd jc)) (combine (seq i (length rows)) rows) = Ok ls /\
    mapM (read_avs_cell (id_map (map (fun k => Z.of_nat (S k)) (seq 0 n)))) ls
    = Ok (map (entry material) (combine (seq i (length rows)) (map (fun c => (t, c)) rows))).
Proof.
  intros Ht Ec rows H. induction H as [|c rows [Hw Hc] _ IH]; intros i Hi; [now exists []|]. cbn [length] in Hi.
  destruct (nth_error material i) as [m|] eqn:Em; [|apply nth_error_None in Em; lia].
  destruct (cell_line_back n t w c i m material Ht Hw Hc Em) as (code' & line & Ec' & El & Rl). assert (code' = code) by congruence. subst code'.
  destruct (IH (S i)) as (ls & E & R); [lia|]. exists (line :: ls). cbn [length seq combine mapM map]. cbn [fst snd]. rewrite El. cbn [bind]. rewrite E. cbn [bind]. split; [reflexivity|].
  rewrite Rl. cbn [bind]. rewrite R. cbn [bind]. do 2 f_equal. unfold entry. cbn [fst snd]. now rewrite (nth_error_nth _ _ 0%Z Em).
Qed.
Lemma map_seq_split {A B} (f : nat * A -> B) (l1 l2 : list A) i :
  map f (combine (seq i (length (l1 ++ l2))) (l1 ++ l2)) = map f (combine (seq i (length l1)) l1) ++ map f (combine (seq (i + length l1) (length l2)) l2).
Proof.
  revert i; induction l1 as [|x l1 IH]; intros i; cbn [app length seq combine map]; [now rewrite Nat.add_0_r|]. f_equal. rewrite IH. do 3 f_equal. f_equal. lia.
Qed.
Lemma cells_lines n material bs : Forall (avs_block n) bs -> forall i, i + length (all_cells bs) <= length material ->
  exists ls, avs_cell_lines i material bs = Ok ls /\
    mapM (read_avs_cell (id_map (map (fun k => Z.of_nat (S k)) (seq 0 n)))) ls
    = Ok (map (entry material) (combine (seq i (length (all_cells bs))) (all_cells bs))).
Proof.
  induction 1 as [|b bs (w & Ht & Hr) _ IH]; intros i Hi; [now exists []|]. rewrite all_cells_cons in *. rewrite app_length, map_length in Hi.
  destruct (avs_facts _ _ Ht) as (code & p & Eo & Ec & _). destruct (rows_lines n _ _ _ material Ht Ec _ Hr i) as (l1 & E1 & R1); [lia|].
  destruct (IH (i + length (bdata b))) as (l2 & E2 & R2); [lia|].
  exists (l1 ++ l2). cbn [avs_cell_lines]. rewrite Eo, Ec. cbn [of_option bind]. unfold blen. rewrite E1. cbn [bind]. rewrite E2. split; [reflexivity|].
  rewrite (mapM_app _ _ _ _ _ R1 R2). rewrite map_seq_split. now rewrite map_length.
Qed.

Lemma block_widths n bs : Forall (avs_block n) bs -> Forall (fun tc => length (snd tc) = avs_width (fst tc) /\ exists w, In (fst tc, w) avs_types) (all_cells bs).
Proof.
  induction 1 as [|b bs (w & Ht & Hr) _ IH]; [constructor|]. rewrite all_cells_cons. apply Forall_app. split; auto. apply Forall_map.
  destruct (avs_facts _ _ Ht) as (code & p & _ & _ & _ & _ & _ & Ew & _). eapply Forall_impl; [|exact Hr]. intros c [L _]. cbn [fst snd]. rewrite Ew. eauto.
Qed.
Lemma entries_cells material l : forall i, map snd (map (entry material) (combine (seq i (length l)) l))
  = map (fun tc => (fst tc, Flac3d.select (avs_order (fst tc)) (snd tc))) l.
Proof. induction l as [|[t c] l IH]; intros i; [reflexivity|]. cbn [length seq combine map]. f_equal. apply IH. Qed.
Lemma entries_ids material (l : list (string * cell)) : forall i, map (fun x => fst (fst x)) (map (entry material) (combine (seq i (length l)) l)) = map (fun k => Z.of_nat (S k)) (seq i (length l)).
Proof. induction l as [|[t c] l IH]; intros i; [reflexivity|]. cbn [length seq combine map]. f_equal. apply IH. Qed.
Lemma entries_materials (l : list (string * cell)) material : length material = length l ->
  map (fun x => snd (fst x)) (map (entry material) (combine (seq 0 (length l)) l)) = material.
Proof.
  intros H. rewrite map_map. cbn [entry fst snd].
  transitivity (map (fun j => nth j material 0%Z) (seq 0 (length l))).
  - rewrite <- (map_map fst (fun j => nth j material 0%Z)). f_equal. now rewrite map_fst_combine by (now rewrite seq_length).
  - rewrite <- H. apply select_all.
Qed.

Lemma cells_back n material bs rest : Forall (avs_block n) bs -> length material = length (all_cells bs) ->
  exists ls, avs_cell_lines 0 material bs = Ok ls /\ 
    read_avs_cells (length (all_cells bs)) (id_map (map (fun k => Z.of_nat (S k)) (seq 0 n))) (ls ++ rest)
    = Ok (map (fun k => Z.of_nat (S k)) (seq 0 (length (all_cells bs))), regroup (all_cells bs), data_for (regroup (all_cells bs)) material, rest).
Proof.
  intros H L. destruct (cells_lines n material bs H 0) as (ls & E & R); [lia|]. exists ls. split; [exact E|].
  unfold read_avs_cells. rewrite (read_lines_n _ _ _ _ _ (eq_trans (eq_sym (eq_trans (map_length (entry material) _) (eq_trans (combine_length _ _) (eq_trans (f_equal2 Nat.min (seq_length _ _) eq_refl) (Nat.min_id _))))) (eq_sym (Forall2_length _ _ _ (proj1 (mapM_Forall2 _ _ _) R)))) R).
  cbn [bind fst snd]. rewrite entries_ids, (entries_materials _ _ L).
  set (en := map (entry material) _).
  assert (Ef : fold_left (fun bs x => snoc_cell bs (fst (snd x)) (snd (snd x))) en []
    = regroup (map (fun tc => (fst tc, Flac3d.select (avs_order (fst tc)) (snd tc))) (all_cells bs))).
  { assert (G : forall (en : list (Z * Z * (string * cell))) acc, fold_left (fun bs x => snoc_cell bs (fst (snd x)) (snd (snd x))) en acc
      = fold_left (fun bs tc => snoc_cell bs (fst tc) (snd tc)) (map snd en) acc) by (induction en0 as [|x en0 IH]; intros acc; [reflexivity|apply IH]).
    rewrite G. unfold en. rewrite entries_cells. change (@nil block) with (regroup []). rewrite (snoc_fold avs_width); [reflexivity|]. cbn [app].
    apply Forall_map. eapply Forall_impl; [|exact (block_widths n bs H)]. intros [t c] (Lc & w & Ht). cbn [fst snd] in *.
    destruct (avs_facts _ _ Ht) as (code & p & _ & _ & _ & _ & _ & Ew & Lo & _). unfold Flac3d.select. rewrite map_length. congruence. }
  rewrite Ef.
  assert (Rel : Forall2 (fun b b' => btype b' = btype b /\ Forall2 (fun c c' => length c' = length c /\ forall p, dget (btype b) avsucd_to_meshio_order = Some p -> permute p c' = Some c) (bdata b) (bdata b'))
    (regroup (all_cells bs)) (regroup (map (fun tc => (fst tc, Flac3d.select (avs_order (fst tc)) (snd tc))) (all_cells bs)))).
  { apply (regroup_related (fun t c c' => length c' = length c /\ forall p, dget t avsucd_to_meshio_order = Some p -> permute p c' = Some c)); [tauto|].
    assert (W := block_widths _ _ H). clear - W. induction W as [|[t c] l (Lc & w & Ht) _ IH]; [constructor|]. cbn [map]. constructor; auto. cbn [fst snd] in *.
    destruct (avs_facts _ _ Ht) as (code & p & _ & _ & _ & _ & _ & Ew & Lo & _). split; [reflexivity|]. split.
    - unfold Flac3d.select. rewrite map_length. congruence.
    - intros q Hq. apply (select_back t w); auto. congruence. }
  assert (Types : Forall (fun b => exists w, In (btype b, w) avs_types) (regroup (all_cells bs))).
  { assert (W := block_widths _ _ H). rewrite <- (regroup_cells (all_cells bs)) in W. assert (N := grouped_nonempty _ (regroup_grouped (all_cells bs))).
    clear - W N. induction (regroup (all_cells bs)) as [|b l IH]; [constructor|]. rewrite all_cells_cons in W. apply Forall_app in W as [W1 W2]. inversion N; subst. constructor; auto.
    destruct (bdata b) as [|c cs]; [congruence|]. inversion W1 as [|? ? [_ X] _]; subst. exact X. }
  assert (Em : mapM (fun b => do o <- of_option KeyError (dget (btype b) avsucd_to_meshio_order); do rows <- mapM (fun c => of_option IndexError (permute o c)) (bdata b); Ok (Block (btype b) rows))
    (regroup (map (fun tc => (fst tc, Flac3d.select (avs_order (fst tc)) (snd tc))) (all_cells bs))) = Ok (regroup (all_cells bs)) /\
    map blen (regroup (map (fun tc => (fst tc, Flac3d.select (avs_order (fst tc)) (snd tc))) (all_cells bs))) = map blen (regroup (all_cells bs))).
  { clear - Rel Types. induction Rel as [|b b' l l' (Et & Hd) _ IH]; [split; reflexivity|]. inversion Types as [|? ? (w & Ht) Tys]; subst. destruct (IH Tys) as [IH1 IH2]. cbn [mapM map].
    destruct (avs_facts _ _ Ht) as (code & p & _ & _ & _ & _ & Ep & _). rewrite Et, Ep. cbn [of_option bind].
    assert (Er : mapM (fun c => of_option IndexError (permute p c)) (bdata b') = Ok (bdata b)).
    { apply mapM_Forall2. clear - Hd Ep. induction Hd as [|c c' l l' (Lc & Hc) _ IHd]; constructor; auto. now rewrite (Hc p Ep). }
    rewrite Er. cbn [bind]. rewrite IH1. cbn [bind]. split; [destruct b; reflexivity|]. f_equal; [|exact IH2]. unfold blen. symmetry. exact (Forall2_length _ _ _ Hd). }
  destruct Em as [Em1 Em2]. rewrite Em1, Em2. reflexivity.
Qed.

(** ** Data *)
Lemma fold_upd {A} (vals : list A) : forall pre suf, length suf = length vals ->
  fold_left (fun acc r => upd (fst r) (snd r) acc) (combine (seq (length pre) (length vals)) vals) (pre ++ suf) = pre ++ vals.
Proof.
  induction vals as [|v vals IH]; intros pre suf H; destruct suf as [|s suf]; try discriminate; [reflexivity|]. cbn [length seq combine fold_left fst snd].
  rewrite upd_mid. replace (pre ++ v :: suf) with ((pre ++ [v]) ++ suf) by now rewrite <- app_assoc.
  replace (S (length pre)) with (length (pre ++ [v])) by (rewrite app_length; cbn; lia). rewrite IH by (cbn in H; lia). now rewrite <- app_assoc.
Qed.

Section Data.
Context {fl : floats} (dfmt : fl -> string) (r : fl -> fl).
Hypothesis dok : forall x, word (dfmt x) = true /\ fparse (dfmt x) = Some (r x).

Lemma parse_rounded (xs : list fl) : parse_floats (map dfmt xs) = Ok (map r xs).
Proof. unfold parse_floats. induction xs as [|x xs IH]; [reflexivity|]. cbn [map mapM]. rewrite (proj2 (dok x)). cbn [of_option bind]. now rewrite IH. Qed.
Lemma columns_back (rows : list (list fl)) : read_columns (map (@length _) rows) (map dfmt (concat rows)) = Ok (map (map r) rows).
Proof.
  induction rows as [|x rows IH]; [reflexivity|]. cbn [map read_columns concat]. rewrite map_app, app_length, map_length.
  destruct (Nat.ltb_spec (length x + length (map dfmt (concat rows))) (length x)); [lia|].
  rewrite firstn_app, map_length, Nat.sub_diag, firstn_all2 by (rewrite map_length; lia). cbn [firstn]. rewrite app_nil_r, parse_rounded. cbn [bind].
  rewrite skipn_app, map_length, Nat.sub_diag, skipn_all2 by (rewrite map_length; lia). cbn [skipn app]. rewrite IH. reflexivity.
Qed.
Lemma label_back k : plain_label k -> read_label (k ++ ", real") = k.
Proof.
  intros [W C]. unfold read_label.
  assert (E : strip (k ++ ", real") = (k ++ ", real")%string).
  { change (k ++ ", real")%string with (k ++ "," ++ " " ++ "real")%string. rewrite <- str_app_assoc. change ((k ++ ",") ++ " " ++ "real")%string with (row_line [(k ++ ",")%string; "real"%string]). apply strip_row. cbn [forallb].
    rewrite andb_true_r. destruct k as [|a k]; [discriminate|]. clear - W. apply word_no_space in W as [W _]. 
    unfold word. cbn [append]. change (String a (k ++ ",")) with (String a k ++ ",")%string.
    revert W. generalize (String a k). intros s. induction s as [|b s IH]; [reflexivity|]. cbn [append no_space]. intros H. apply andb_true_iff in H as [-> H]. cbn [andb]. auto. }
  rewrite E. change (k ++ ", real")%string with (k ++ String "," " real")%string. rewrite split_char_app by exact C. cbn [hd]. rewrite strip_word by exact W.
  apply word_no_space in W as [W _]. apply no_space_blank in W. clear - W. induction k as [|a k IH]; [reflexivity|]. cbn [char_in replace_char] in *. apply orb_false_iff in W as [W1 W2].
  rewrite IH by exact W2. now rewrite Ascii.eqb_sym, W1.
Qed.
End Data.
