(** Appending cells one by one gives the regrouped list of cells. *)
From Verif.Lib Require Import Base Facts Runs.
From Verif.Model Require Import Core Snoc.
From Verif.Spec Require Import Core Blocks.
From Verif.Proofs Require Import Blocks.

Lemma snoc_cells bs t c : all_cells (snoc_cell bs t c) = all_cells bs ++ [(t, c)].
Proof.
  induction bs as [|b bs IH]; [reflexivity|]. cbn [snoc_cell]. destruct bs as [|b2 bs].
  - destruct (String.eqb_spec (btype b) t) as [<-|N].
    + unfold all_cells. cbn. now rewrite !app_nil_r, map_app.
    + unfold all_cells. cbn. now rewrite !app_nil_r.
  - rewrite (all_cells_cons b), IH, (all_cells_cons b), app_assoc. reflexivity.
Qed.

Definition uniform (w : string -> nat) (bs : list block) : Prop := Forall (fun b => rows_have (w (btype b)) b) bs.

Lemma snoc_uniform w bs t c : uniform w bs -> length c = w t -> uniform w (snoc_cell bs t c).
Proof.
  unfold uniform. intros H Hc. induction H as [|b bs Hb Hbs IH].
  - repeat constructor. exact Hc.
  - cbn [snoc_cell]. destruct bs as [|b2 bs].
    + destruct (String.eqb_spec (btype b) t) as [E|N].
      * constructor; [|constructor]. unfold rows_have. cbn. apply Forall_app. split; [now rewrite <- E|repeat constructor; exact Hc].
      * repeat constructor; auto.
    + constructor; auto.
Qed.

Lemma snoc_headkey bs t c : bs <> [] -> Forall (fun b => bdata b <> []) bs -> headkey (snoc_cell bs t c) = headkey bs.
Proof.
  intros N H. destruct bs as [|b bs]; [congruence|]. cbn [snoc_cell]. inversion H as [|? ? Hb _]; subst. destruct b as [tb [|r rs]]; [cbn in Hb; congruence|].
  destruct bs as [|b2 bs].
  - cbn [btype bdata]. destruct (String.eqb_spec tb t) as [<-|Ne]; reflexivity.
  - reflexivity.
Qed.

Lemma grouped_nonempty bs : grouped bs -> Forall (fun b => bdata b <> []) bs.
Proof. induction bs as [|b bs IH]; intros H; constructor; destruct H as [(c & cs & E & _) G]; [congruence|auto]. Qed.

Lemma snoc_grouped w bs t c : uniform w bs -> length c = w t -> grouped bs -> grouped (snoc_cell bs t c).
Proof.
  intros U Hc. induction bs as [|b bs IH]; intros G.
  - cbn. split; [|exact I]. exists c, []. repeat split; auto. discriminate.
  - cbn [snoc_cell]. inversion U as [|? ? U1 U2]; subst. destruct G as [(r & rs & E & Hf & Hk) G]. destruct bs as [|b2 bs].
    + destruct (String.eqb_spec (btype b) t) as [<-|N].
      * cbn [grouped btype bdata]. split; [|exact I]. rewrite E. exists r, (rs ++ [c]). split; [reflexivity|]. split; [|discriminate].
        apply Forall_app. split; auto. constructor; [|constructor]. unfold rows_have in U1. rewrite E in U1. inversion U1 as [|? ? L _]; subst. congruence.
      * split; [|split; [|exact I]].
        -- exists r, rs. repeat split; auto. cbn. congruence.
        -- exists c, []. repeat split; auto. discriminate.
    + split; [|now apply IH]. exists r, rs. repeat split; auto. rewrite snoc_headkey; [exact Hk|discriminate|now apply grouped_nonempty].
Qed.

Lemma regroup_uniform w l : Forall (fun tc => length (snd tc) = w (fst tc)) l -> uniform w (regroup l).
Proof.
  induction 1 as [|[t c] l H Hl IH]; [constructor|]. cbn [fst snd] in H. cbn [regroup].
  destruct (regroup l) as [|[t' [|c' cs]] bs].
  - repeat constructor. exact H.
  - constructor; auto. repeat constructor. exact H.
  - destruct (String.eqb_spec t t') as [->|N]; cbn [andb].
    + destruct (Nat.eqb (length c) (length c')).
      * inversion IH as [|? ? I1 I2]; subst. constructor; auto. constructor; auto.
      * constructor; auto. repeat constructor. exact H.
    + constructor; auto. repeat constructor. exact H.
Qed.

Theorem snoc_regroup w l t c : Forall (fun tc => length (snd tc) = w (fst tc)) (l ++ [(t, c)]) ->
  snoc_cell (regroup l) t c = regroup (l ++ [(t, c)]).
Proof.
  intros H. apply Forall_app in H as [Hl Hc]. inversion Hc as [|? ? Hc1 _]; subst. cbn in Hc1.
  rewrite (grouped_regroup (snoc_cell (regroup l) t c)).
  - now rewrite snoc_cells, regroup_cells.
  - apply (snoc_grouped w); auto using regroup_uniform, regroup_grouped.
Qed.

Theorem snoc_fold w l2 : forall l1, Forall (fun tc => length (snd tc) = w (fst tc)) (l1 ++ l2) ->
  fold_left (fun bs tc => snoc_cell bs (fst tc) (snd tc)) l2 (regroup l1) = regroup (l1 ++ l2).
Proof.
  induction l2 as [|[t c] l2 IH]; intros l1 H; [now rewrite app_nil_r|]. cbn [fold_left fst snd].
  replace (l1 ++ (t, c) :: l2) with ((l1 ++ [(t, c)]) ++ l2) in * by now rewrite <- app_assoc.
  rewrite (snoc_regroup w); [now apply IH|]. apply Forall_app in H. tauto.
Qed.
