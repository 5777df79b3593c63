(** From the collected data to the mesh. *)
From Verif.Lib Require Import Base Facts Facts2 Text.
From Verif.Model Require Import Core Info Tables Flac3d.
From Verif.Spec Require Import Core Blocks Flac3d.
From Verif.Proofs Require Import Blocks Gmsh22 Info Snoc Flac3d.

(** ** Renumbering *)
Lemma fold_max_seq n : forall a z, (z <= Z.of_nat a)%Z -> 0 < n -> fold_left Z.max (map Z.of_nat (seq a n)) z = Z.of_nat (a + n - 1).
Proof.
  induction n as [|n IH]; intros a z Hz Hn; [lia|]. cbn [seq map fold_left]. destruct n as [|n].
  - cbn [seq map fold_left]. lia.
  - rewrite IH by lia. f_equal. lia.
Qed.

Lemma upd_mid {A} (pre : list A) x v l : upd (length pre) v (pre ++ x :: l) = pre ++ v :: l.
Proof. induction pre as [|y pre IH]; [reflexivity|]. cbn [length app upd]. now rewrite IH. Qed.

Lemma inverse_fold n : forall a pre, length pre = S a ->
  fold_left (fun l ki => upd (snd ki) (Z.of_nat (fst ki)) l) (combine (seq a n) (seq (S a) n)) (pre ++ repeat (-1)%Z n)
  = pre ++ map Z.of_nat (seq a n).
Proof.
  induction n as [|n IH]; intros a pre Hp; [reflexivity|]. cbn [seq combine repeat fold_left fst snd map].
  assert (E : upd (S a) (Z.of_nat a) (pre ++ (-1)%Z :: repeat (-1)%Z n) = pre ++ Z.of_nat a :: repeat (-1)%Z n) by (rewrite <- Hp; apply upd_mid).
  rewrite E. clear E.
  replace (pre ++ Z.of_nat a :: repeat (-1)%Z n) with ((pre ++ [Z.of_nat a]) ++ repeat (-1)%Z n) by (now rewrite <- app_assoc).
  rewrite IH by (rewrite app_length; cbn; lia). now rewrite <- app_assoc.
Qed.

Lemma inverse_seq n : 0 < n -> inverse_ids (map Z.of_nat (seq 1 n)) = Ok ((-1)%Z :: map Z.of_nat (seq 0 n)).
Proof.
  intros Hn. unfold inverse_ids.
  assert (E : fold_left Z.max (map Z.of_nat (seq 1 n)) (hd 0%Z (map Z.of_nat (seq 1 n))) = Z.of_nat n).
  { rewrite fold_max_seq; [f_equal; lia|destruct n; cbn; lia|auto]. }
  rewrite E. destruct (Z.ltb_spec (Z.of_nat n + 1) 0); [lia|].
  replace (Z.to_nat (Z.of_nat n + 1)) with (S n) by lia.
  rewrite np_index_all.
  2:{ intros i Hi. apply in_map_iff in Hi. destruct Hi as (k & <- & Hk). apply in_seq in Hk. lia. }
  cbn [bind]. rewrite map_map. rewrite (map_ext _ (fun k => k)).
  2:{ intros k. unfold pos_of. destruct (Z.ltb_spec (Z.of_nat k) 0); lia. }
  rewrite map_id. unfold enumerate. rewrite seq_length. f_equal. exact (inverse_fold n 0 [(-1)%Z] eq_refl).
Qed.

Lemma renumber_ok n (sets : dict (list Z)) : 0 < n ->
  Forall (fun kv => snd kv <> [] /\ Forall (fun i => (0 <= i < Z.of_nat n)%Z) (snd kv)) sets ->
  renumber (map Z.of_nat (seq 1 n)) 0 (map (fun kv => (fst kv, map (fun i => (i + 1)%Z) (snd kv))) sets) = Ok sets.
Proof.
  intros Hn H. unfold renumber. destruct (map Z.of_nat (seq 1 n)) as [|x xs] eqn:E; [destruct n; [lia|discriminate]|].
  rewrite <- E. clear E x xs. rewrite inverse_seq by auto. cbn [bind].
  apply mapM_Forall2. induction H as [|[k d] sets [Hne Hd] _ IH]; cbn [map]; constructor; auto. cbn [fst snd] in *. clear IH.
  assert (X : mapM (fun i => do p <- np_index (length ((-1)%Z :: map Z.of_nat (seq 0 n))) i;
      of_option IndexError (nth_error ((-1)%Z :: map Z.of_nat (seq 0 n)) p)) (map (fun i => (i + 1)%Z) d) = Ok d).
  { apply mapM_Forall2. clear Hne. induction Hd as [|i d Hi _ IH]; cbn [map]; constructor; auto.
    cbn [length]. rewrite map_length, seq_length. rewrite np_index_ok by lia. cbn [bind]. unfold pos_of.
    destruct (Z.ltb_spec (i + 1) 0); [lia|]. replace (Z.to_nat (i + 1)) with (S (Z.to_nat i)) by lia. cbn [nth_error].
    rewrite nth_error_map, (nth_error_nth' _ 0) by (rewrite seq_length; lia). rewrite seq_nth by lia. cbn [option_map of_option].
    f_equal. lia. }
  destruct d as [|i d]; [congruence|]. cbn [map] in *. rewrite X. cbn [bind].
  f_equal. f_equal. rewrite (map_ext _ (fun x => x)) by (intros; lia). now rewrite map_id.
Qed.

(** ** Splitting *)
Lemma digitize_none lens : forall acc x, (x < Z.of_nat acc)%Z -> digitize (cumsum_from acc lens) x = 0.
Proof.
  unfold digitize. induction lens as [|a lens IH]; intros acc x H; [reflexivity|]. cbn [cumsum_from filter].
  destruct (Z.leb_spec (Z.of_nat (acc + a)) x); [lia|]. apply IH. lia.
Qed.
Lemma digitize_from lens : forall acc k x, (Z.of_nat acc <= x)%Z -> k < length lens ->
  Nat.eqb (digitize (cumsum_from acc lens) x) k
  = (Z.of_nat (acc + sum_nat (firstn k lens)) <=? x)%Z && (x <? Z.of_nat (acc + sum_nat (firstn (S k) lens)))%Z.
Proof.
  induction lens as [|a lens IH]; intros acc k x Hx Hk; [cbn in Hk; lia|]. cbn [cumsum_from].
  assert (E : digitize (acc + a :: cumsum_from (acc + a) lens) x =
    if (Z.of_nat (acc + a) <=? x)%Z then S (digitize (cumsum_from (acc + a) lens) x) else digitize (cumsum_from (acc + a) lens) x).
  { unfold digitize. cbn [filter]. now destruct (Z.of_nat (acc + a) <=? x)%Z. }
  rewrite E. clear E. destruct (Z.leb_spec (Z.of_nat (acc + a)) x) as [L|L].
  - destruct k as [|k].
    + cbn [firstn sum_nat Nat.eqb]. symmetry. apply andb_false_iff. right. apply Z.ltb_ge. lia.
    + cbn [Nat.eqb]. cbn [length] in Hk. rewrite IH by lia. cbn [firstn sum_nat].
      replace (acc + (a + sum_nat (firstn k lens))) with (acc + a + sum_nat (firstn k lens)) by lia.
      f_equal. f_equal. f_equal. destruct lens; cbn [firstn sum_nat]; lia.
  - rewrite digitize_none by lia. destruct k as [|k].
    + cbn [firstn sum_nat Nat.eqb]. symmetry. apply andb_true_iff. split; [apply Z.leb_le; lia|apply Z.ltb_lt]. lia.
    + cbn [Nat.eqb firstn sum_nat]. symmetry. apply andb_false_iff. left. apply Z.leb_gt. lia.
Qed.

Lemma split_set_ok bs d : Forall (fun x => (0 <= x)%Z) d -> split_set bs d = map (fun k => in_block bs k d) (seq 0 (length bs)).
Proof.
  intros H. unfold split_set. apply map_ext_in. intros k Hk. apply in_seq in Hk. unfold in_block. apply filter_ext_in.
  intros x Hx. rewrite Forall_forall in H. specialize (H x Hx). unfold cumsum. rewrite digitize_from by (rewrite ?map_length; lia).
  unfold first_cell. now rewrite !firstn_map.
Qed.

(** ** The numbers written *)
Lemma seq_S a n : seq (S a) n = map S (seq a n).
Proof. symmetry. apply seq_shift. Qed.
Lemma shift_running bs : forall gid s, length s = length bs ->
  concat (shift_sets gid bs s) =
  concat (map (fun kl => map (fun i => (Z.of_nat (gid + first_cell bs (fst kl)) + i)%Z) (snd kl)) (enumerate s)).
Proof.
  induction bs as [|b bs IH]; intros gid s Hl; [destruct s; [reflexivity|discriminate]|].
  destruct s as [|l s]; [discriminate|]. cbn [shift_sets concat]. unfold enumerate. cbn [length seq combine map concat fst snd].
  f_equal.
  - apply map_ext. intros i. unfold first_cell. cbn [firstn map sum_nat]. lia.
  - rewrite IH by (cbn in Hl; lia). f_equal. unfold enumerate. rewrite seq_S.
    clear. generalize (seq 0 (length s)). induction s as [|l s IH]; intros [|k ks]; [reflexivity..|].
    cbn [map combine fst snd]. f_equal; [|apply IH]. apply map_ext. intros i. unfold first_cell. cbn [firstn map sum_nat]. lia.
Qed.
Lemma written_running bs s : length s = length bs -> written_set bs s = map (fun i => (i + 1)%Z) (running bs s).
Proof. intros H. unfold written_set, running. now rewrite shift_running. Qed.

Lemma sum_firstn_le k l : sum_nat (firstn k l) <= sum_nat l.
Proof. revert k; induction l as [|x l IH]; intros [|k]; cbn; try lia. specialize (IH k). lia. Qed.

Lemma shift_range bs : forall gid s, Forall2 (fun b l => Forall (fun i => (0 <= i < Z.of_nat (blen b))%Z) l) bs s ->
  Forall (fun i => (Z.of_nat gid <= i < Z.of_nat (gid + sum_nat (map blen bs)))%Z) (concat (shift_sets gid bs s)).
Proof.
  induction bs as [|b bs IH]; intros gid s H; inversion H as [|? l ? s' Hl Hs]; subst; [constructor|]. cbn [shift_sets concat map sum_nat].
  apply Forall_app. split.
  - apply Forall_forall. intros x Hx. apply in_map_iff in Hx. destruct Hx as (i & <- & Hi). rewrite Forall_forall in Hl. specialize (Hl i Hi). cbn in Hl. lia.
  - eapply Forall_impl; [|apply IH; exact Hs]. cbn. intros; lia.
Qed.
Lemma running_range bs s : Forall2 (fun b l => Forall (fun i => (0 <= i < Z.of_nat (blen b))%Z) l) bs s ->
  Forall (fun i => (0 <= i < Z.of_nat (sum_nat (map blen bs)))%Z) (running bs s).
Proof.
  intros H. unfold running. assert (L := Forall2_length _ _ _ H). change (fun kl : nat * list Z => map (fun i => (Z.of_nat (first_cell bs (fst kl)) + i)%Z) (snd kl))
    with (fun kl : nat * list Z => map (fun i => (Z.of_nat (0 + first_cell bs (fst kl)) + i)%Z) (snd kl)).
  rewrite <- shift_running by auto. apply (shift_range bs 0 s H).
Qed.
Lemma running_nonempty bs s : length s = length bs -> concat s <> [] -> running bs s <> [].
Proof.
  intros L H E. apply H. clear H. unfold running in E. rewrite <- (app_nil_r (concat s)).
  assert (X : forall l : list (nat * list Z), concat (map (fun kl => map (fun i => (Z.of_nat (first_cell bs (fst kl)) + i)%Z) (snd kl)) l) = [] -> concat (map snd l) = []).
  { induction l as [|[k x] l IH]; [reflexivity|]. cbn [map concat fst snd]. intros Y. apply app_eq_nil in Y. destruct Y as [Y1 Y2].
    apply map_eq_nil in Y1. subst. auto. }
  apply X in E. unfold enumerate in E. rewrite map_snd_combine in E by now rewrite seq_length. now rewrite E.
Qed.

(** ** Cells in the order of meshio *)
(** Related cells in the same order are grouped in the same way. *)
Lemma regroup_related (P : string -> cell -> cell -> Prop) l l' : (forall t c c', P t c c' -> length c' = length c) ->
  Forall2 (fun tc tc' => fst tc' = fst tc /\ P (fst tc) (snd tc) (snd tc')) l l' ->
  Forall2 (fun b b' => btype b' = btype b /\ Forall2 (P (btype b)) (bdata b) (bdata b')) (regroup l) (regroup l').
Proof.
  intros HP. induction 1 as [|[t c] [t' c'] l l' (Et & Hc) _ IH]; [constructor|]. cbn [fst snd] in *. subst t'. cbn [regroup].
  inversion IH as [|[t1 r1] [t2 r2] bs bs' [E1 E2] Hr A B]; subst.
  - constructor; [|constructor]. cbn. auto.
  - cbn [btype bdata] in *. subst t2. inversion E2 as [|c1 c2 cs cs' H1 H2]; subst.
    + repeat (constructor; cbn; auto).
    + rewrite (HP _ _ _ Hc), (HP _ _ _ H1). destruct (_ && _) eqn:E.
      * apply andb_true_iff in E. destruct E as [E _]. apply String.eqb_eq in E. subst t1. repeat (constructor; cbn; auto).
      * repeat (constructor; cbn; auto).
Qed.

Lemma from_regroup l l' :
  Forall2 (fun tc tc' => fst tc' = fst tc /\ (length (snd tc') = length (snd tc) /\
    exists q, dget (fst tc) flac3d_to_meshio_order = Some q /\ permute q (snd tc) = Some (snd tc'))) l l' ->
  from_flac3d (regroup l) = Ok (regroup l').
Proof.
  intros H. apply (regroup_related (fun t c c' => length c' = length c /\
    exists q, dget t flac3d_to_meshio_order = Some q /\ permute q c = Some c')) in H; [|tauto].
  unfold from_flac3d. apply mapM_Forall2. assert (G := grouped_nonempty _ (regroup_grouped l)).
  revert G. induction H as [|[t r] [t' r'] bs bs' [E Hr] _ IH]; intros G; constructor; [|apply IH; now inversion G].
  cbn [btype bdata] in *. subst t'. inversion G as [|? ? G1 _]; subst. cbn [bdata] in G1. inversion Hr as [|c c' cs cs' (_ & q & Eq & _) _]; subst; [congruence|].
  rewrite Eq. cbn [of_option bind]. assert (X : mapM (fun r => of_option IndexError (permute q r)) (c :: cs) = Ok (c' :: cs')); [|now rewrite X].
  apply mapM_Forall2. clear - Hr Eq. induction Hr as [|x x' xs xs' (_ & q' & Eq' & Ep) _ IH]; constructor; auto.
  assert (q' = q) by congruence. subst q'. now rewrite Ep.
Qed.
