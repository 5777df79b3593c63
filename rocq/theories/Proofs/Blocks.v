(** Facts about [regroup]. *)
From Verif.Lib Require Import Base Facts Runs.
From Verif.Model Require Import Core.
From Verif.Spec Require Import Core Blocks.

Lemma all_cells_cons b bs : all_cells (b :: bs) = map (pair (btype b)) (bdata b) ++ all_cells bs.
Proof. reflexivity. Qed.

Lemma all_cells_app a b : all_cells (a ++ b) = all_cells a ++ all_cells b.
Proof. unfold all_cells. apply flat_map_app. Qed.

Lemma all_cells_length bs : length (all_cells bs) = sum_nat (map blen bs).
Proof.
  induction bs as [|b bs IH]; [reflexivity|]. rewrite all_cells_cons, app_length, map_length, IH. reflexivity.
Qed.

(** Regrouping loses nothing. *)
Lemma regroup_cells l : all_cells (regroup l) = l.
Proof.
  induction l as [|[t c] l IH]; [reflexivity|]. cbn [regroup].
  destruct (regroup l) as [|[t' [|c' cs]] bs]; cbn in *.
  - now rewrite IH.
  - now rewrite IH.
  - destruct (String.eqb_spec t t') as [->|Hne]; cbn; [|now rewrite IH].
    destruct (Nat.eqb (length c) (length c')); cbn; now rewrite IH.
Qed.

Definition headkey (bs : list block) : option (string * nat) :=
  match bs with
  | Block t (c :: _) :: _ => Some (t, length c)
  | _ => None
  end.

Lemma regroup_headkey l :
  headkey (regroup l) = match l with [] => None | (t, c) :: _ => Some (t, length c) end.
Proof.
  destruct l as [|[t c] l]; [reflexivity|]. cbn [regroup].
  destruct (regroup l) as [|[t' [|c' cs]] bs]; try reflexivity.
  destruct (String.eqb t t' && Nat.eqb (length c) (length c')); reflexivity.
Qed.

(** Uniform nonempty blocks, neighbours differing in type or width. *)
Fixpoint grouped (bs : list block) : Prop :=
  match bs with
  | [] => True
  | b :: bs' => (exists c cs, bdata b = c :: cs /\ Forall (fun r => length r = length c) cs /\
                   headkey bs' <> Some (btype b, length c)) /\ grouped bs'
  end.

Lemma regroup_prepend t c cs rest :
  Forall (fun r => length r = length c) cs ->
  match rest with [] => None | (t', c') :: _ => Some (t', length c') end <> Some (t, length c) ->
  regroup (map (pair t) (c :: cs) ++ rest) = Block t (c :: cs) :: regroup rest.
Proof.
  revert c; induction cs as [|c2 cs IH]; intros c Hf Hk.
  - cbn [map app regroup]. rewrite <- regroup_headkey in Hk.
    destruct (regroup rest) as [|[t' [|c' cs']] bs]; try reflexivity.
    destruct (String.eqb_spec t t') as [->|Hne]; [|reflexivity].
    destruct (Nat.eqb_spec (length c) (length c')) as [E|E]; [|reflexivity].
    cbn in Hk. congruence.
  - inversion Hf as [|? ? Hl Hf']; subst.
    change (map (pair t) (c :: c2 :: cs) ++ rest) with ((t, c) :: (map (pair t) (c2 :: cs) ++ rest)).
    cbn [regroup]. rewrite IH.
    + rewrite String.eqb_refl, Hl, Nat.eqb_refl. reflexivity.
    + rewrite Hl. exact Hf'.
    + now rewrite Hl.
Qed.

(** The grouping is determined by the cell sequence. *)
Lemma grouped_regroup bs : grouped bs -> bs = regroup (all_cells bs).
Proof.
  induction bs as [|b bs IH]; intros H; [reflexivity|].
  destruct H as [(c & cs & Hb & Hf & Hk) Hg]. rewrite all_cells_cons, Hb, regroup_prepend; auto.
  - rewrite <- IH by auto. destruct b; cbn in *. now subst.
  - rewrite (IH Hg), regroup_headkey in Hk. exact Hk.
Qed.

Lemma regroup_grouped l : grouped (regroup l).
Proof.
  induction l as [|[t c] l IH]; [exact I|]. cbn [regroup].
  destruct (regroup l) as [|[t' [|c' cs]] bs].
  - cbn. split; [|exact I]. exists c, []. repeat split; auto. discriminate.
  - destruct IH as [(c0 & cs0 & Hb & _) _]. discriminate.
  - destruct (String.eqb_spec t t') as [->|Hne]; cbn [andb].
    + destruct (Nat.eqb_spec (length c) (length c')) as [E|E].
      * destruct IH as [(c0 & cs0 & Hb & Hf & Hk) Hg]. split; [|exact Hg].
        injection Hb as <- <-. cbn [btype bdata] in *. exists c, (c' :: cs). split; [reflexivity|].
        rewrite E. split; [constructor; auto|exact Hk].
      * split; [|exact IH]. exists c, []. repeat split; auto. cbn. congruence.
    + split; [|exact IH]. exists c, []. repeat split; auto. cbn. congruence.
Qed.

(** Blocks that are already in the form the readers produce come back unchanged. *)
Lemma regroup_id bs : grouped bs -> regroup (all_cells bs) = bs.
Proof. intros H. symmetry. now apply grouped_regroup. Qed.

(** Assembly from runs: if [keys] labels the cells [rows] with types, cutting along the
    runs of a labelling that refines the type gives the regrouped cells. *)
Lemma data_for_length {V} out (d : list V) :
  length d = length (all_cells out) -> map (@length V) (data_for out d) = map blen out.
Proof.
  unfold data_for. rewrite all_cells_length. generalize (map blen out) as lens. intros lens. revert d.
  induction lens as [|n ns IH]; intros d Hl; cbn in *; auto.
  rewrite firstn_length, IH by (rewrite skipn_length; lia). f_equal. lia.
Qed.

Lemma data_for_concat {V} out (d : list V) :
  length d = length (all_cells out) -> concat (data_for out d) = d.
Proof. intros H. unfold data_for. apply concat_split_lens. rewrite <- all_cells_length. lia. Qed.

Lemma regroup_faces (name : nat -> string) (faces : list cell) :
  flat_map bdata (regroup (map (fun f => (name (length f), f)) faces)) = faces.
Proof.
  pose proof (regroup_cells (map (fun f => (name (length f), f)) faces)) as H.
  apply (f_equal (map snd)) in H. rewrite map_map, map_id in H. cbn [snd] in H. rewrite <- H at 2.
  unfold all_cells. generalize (regroup (map (fun f => (name (length f), f)) faces)). intros bs.
  induction bs as [|b bs IH]; [reflexivity|]. cbn. rewrite map_app, map_map, map_id, IH. reflexivity.
Qed.
