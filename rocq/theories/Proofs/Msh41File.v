(** MSH 4.1: entities and whole files (C25). *)
From Coq Require Import ZArith NArith List String Ascii Bool Lia ZifyBool ZifyNat ZifyN Permutation Sorted.
From Verif.Lib Require Import Base Facts Facts2 Text TextFacts Lines LinesFacts Runs Perm Bytes BytesFacts File.
From Verif.Model Require Import Core Gmsh Gmsh22 Port Msh41.
From Verif.Spec Require Import Core Blocks Gmsh Gmsh22 Msh41.
From Verif.Proofs Require Import Core CoreMisc Vtu Gmsh Gmsh22 Gmsh22File Port Msh41.
Import Model.Gmsh Model.Port Model.Msh41 Spec.Msh41.
Import ListNotations.

Lemma SS_ext {A} (R : A -> A -> Prop) l1 l2 : (forall x y, R x y -> R y x -> False) ->
  StronglySorted R l1 -> StronglySorted R l2 -> (forall x, In x l1 <-> In x l2) -> l1 = l2.
Proof.
  intros Ha H1. revert l2. induction H1 as [|x l1 Hs IH Hx]; intros l2 H2 Hm.
  - destruct l2 as [|y l2]; [reflexivity|]. destruct (proj2 (Hm y) (or_introl eq_refl)).
  - inversion H2 as [|y l2' Hs2 Hy]; subst.
    + destruct (proj1 (Hm x) (or_introl eq_refl)).
    + rewrite Forall_forall in Hx, Hy.
      assert (x = y).
      { destruct (proj1 (Hm x) (or_introl eq_refl)) as [E|E]; [auto|]. destruct (proj2 (Hm y) (or_introl eq_refl)) as [E'|E']; [auto|].
        destruct (Ha x y (Hx _ E') (Hy _ E)). }
      subst y. f_equal. apply IH; auto. intros z. split; intros Hz.
      * destruct (proj1 (Hm z) (or_intror Hz)) as [E|E]; [|auto]. subst z. destruct (Ha x x (Hx _ Hz) (Hx _ Hz)).
      * destruct (proj2 (Hm z) (or_intror Hz)) as [E|E]; [|auto]. subst z. destruct (Ha x x (Hy _ Hz) (Hy _ Hz)).
Qed.
Lemma SS_filter {A} (R : A -> A -> Prop) f l : StronglySorted R l -> StronglySorted R (filter f l).
Proof.
  induction 1 as [|x l Hs IH Hx]; cbn; [constructor|]. destruct (f x); [|exact IH]. constructor; [exact IH|].
  apply Forall_forall. intros y Hy. apply filter_In in Hy. rewrite Forall_forall in Hx. now apply Hx.
Qed.

(** The entities, dimension by dimension. *)
Definition of_dim (d : Z) (ents : list (Z * Z)) : list (Z * Z) := filter (fun e => (fst e =? d)%Z) ents.
Lemma of_dim_In d ents e : In e (of_dim d ents) <-> In e ents /\ fst e = d.
Proof. unfold of_dim. rewrite filter_In, Z.eqb_eq. tauto. Qed.
Lemma split_dims ents : StronglySorted pair_less ents -> Forall (fun e => 0 <= fst e <= 3)%Z ents ->
  ents = of_dim 0 ents ++ of_dim 1 ents ++ of_dim 2 ents ++ of_dim 3 ents.
Proof.
  intros Hs Hd. rewrite Forall_forall in Hd. apply (SS_ext pair_less); auto.
  - unfold pair_less. lia.
  - repeat (apply SS_app; [now apply SS_filter| |]); try (now apply SS_filter);
      intros x y Hx Hy; rewrite ?in_app_iff, ?of_dim_In in *; unfold pair_less; lia.
  - intros e. rewrite !in_app_iff, !of_dim_In. split; [|tauto]. intros He. specialize (Hd e He).
    assert (fst e = 0 \/ fst e = 1 \/ fst e = 2 \/ fst e = 3)%Z as [E|[E|[E|E]]] by lia; auto 6.
Qed.

Lemma where_single l i e : NoDup l -> nth_error l i = Some e -> where_ (pair_eqb e) l = [i].
Proof.
  intros Hd Hi. apply StronglySorted_lt_ext; [apply where_sorted|constructor; constructor|].
  intros k. split.
  - intros Hk. apply where_entity in Hk. left. rewrite NoDup_nth_error in Hd. apply Hd; [now apply nth_error_lt in Hi|congruence].
  - intros [<-|[]]. apply where_spec. exists e. split; [auto|apply pair_eqb_refl].
Qed.

Lemma combine_nth_enumerate {A B} (l : list A) (g : list B) def : length g = length l ->
  combine l g = map (fun ia => (snd ia, nth (fst ia) g def)) (enumerate l).
Proof.
  intros H. unfold enumerate.
  assert (G : forall (pre : list B) (l : list A) (g : list B), length g = length l ->
    combine l g = map (fun ia => (snd ia, nth (fst ia) (pre ++ g) def)) (combine (seq (length pre) (length l)) l)).
  { clear. intros pre l. revert pre. induction l as [|x l IH]; intros pre [|y g] H; try discriminate; [reflexivity|].
    cbn [length seq combine map fst snd]. rewrite app_nth2, Nat.sub_diag by lia. cbn [nth]. f_equal.
    injection H as H. rewrite (IH (pre ++ [y]) g H), app_length. cbn [length]. rewrite Nat.add_1_r.
    apply map_ext. intros [i a]. now rewrite <- app_assoc. }
  apply (G [] l g H).
Qed.
Lemma enumerate_nth {A} (l : list A) i x : In (i, x) (enumerate l) <-> nth_error l i = Some x.
Proof.
  unfold enumerate.
  assert (G : forall k i, In (i, x) (combine (seq k (length l)) l) <-> k <= i /\ nth_error l (i - k) = Some x).
  { clear. induction l as [|y l IH]; intros k i; cbn [length seq combine In].
    - split; [tauto|]. intros [_ H]. now destruct (i - k).
    - rewrite IH. split.
      + intros [H|[H1 H2]]; [injection H as <- <-; rewrite Nat.sub_diag; auto|]. split; [lia|]. now replace (i - k) with (S (i - S k)) by lia.
      + intros [H1 H2]. destruct (i - k) as [|j] eqn:E.
        * left. cbn in H2. injection H2 as ->. f_equal. lia.
        * right. split; [lia|]. cbn in H2. now replace (i - S k) with j by lia. }
  rewrite G, Nat.sub_0_r. split; [tauto|]. intros; split; [lia|auto].
Qed.

Section File.
Context {F : Type} (zero : F) (p : port F) (good : list (unt p) -> Prop)
  (holds : list (unt p) -> list (item F) -> list (unt p) -> Prop).
Hypothesis Hp : port_ok p good holds.

(** ** Entities *)
Section Entities.
Variable m : mesh41 F.
Variable dt : list (Z * Z).
Variables g q : list (list Z).
Hypothesis W : msh41_mesh m.
Hypothesis He : entities_ok m dt.
Hypothesis Hdt : m_dim_tags m = Some dt.
Hypothesis Hg : m_geom m = Some g.
Hypothesis Hq : m_phys m = Some q.
Let ces := entities (m_cells m) g.

Definition phys_of (e : Z * Z) : list Z :=
  match where_ (pair_eqb e) ces with k :: _ => [lead (nth k q [])] | [] => [] end.
Definition bnd_of (e : Z * Z) : list Z :=
  match m_bounds m, where_ (pair_eqb e) ces with
  | Some bs, k :: _ => match nth k bs None with Some l => l | None => [] end
  | _, _ => []
  end.

Lemma ces_enum : ces = map (fun ib => (dim_of (snd ib), lead (nth (fst ib) g []))) (enumerate (m_cells m)).
Proof.
  unfold ces, entities. destruct (w_geom _ W g Hg) as [Hpc _]. rewrite (combine_nth_enumerate _ _ []).
  - now rewrite map_map.
  - symmetry. apply (Forall2_length _ _ _ Hpc).
Qed.
Lemma ces_length : length ces = length (m_cells m).
Proof. rewrite ces_enum, map_length. apply enumerate_length. Qed.
Lemma ces_nth i b : nth_error (m_cells m) i = Some b -> nth_error ces i = Some (dim_of b, lead (nth i g [])).
Proof.
  intros H. rewrite ces_enum, nth_error_map. pose proof (enumerate_snd (m_cells m)) as E1. pose proof (enumerate_fst (m_cells m)) as E2.
  assert (Hl := nth_error_lt _ _ _ H).
  destruct (nth_error (enumerate (m_cells m)) i) as [[j b']|] eqn:E.
  - assert (nth_error (map snd (enumerate (m_cells m))) i = Some b') by (rewrite nth_error_map, E; reflexivity).
    assert (nth_error (map fst (enumerate (m_cells m))) i = Some j) by (rewrite nth_error_map, E; reflexivity).
    rewrite E1 in H0. rewrite E2 in H1. rewrite (nth_error_nth' _ 0) in H1 by (now rewrite seq_length). rewrite seq_nth in H1 by auto.
    cbn in H1. cbn [option_map fst snd]. congruence.
  - apply nth_error_None in E. rewrite enumerate_length in E. lia.
Qed.
Lemma ces_nodup : NoDup ces.
Proof. destruct (e_geom _ _ He) as (g' & E & H & _). rewrite Hg in E. injection E as <-. exact H. Qed.
Lemma ces_incl : incl ces dt.
Proof. destruct (e_geom _ _ He) as (g' & E & _ & H). rewrite Hg in E. injection E as <-. exact H. Qed.
Lemma where_ces e : length (where_ (pair_eqb e) ces) <= 1.
Proof.
  destruct (where_ (pair_eqb e) ces) as [|k l] eqn:E; [cbn; lia|].
  assert (In k (where_ (pair_eqb e) ces)) by (rewrite E; now left). apply where_entity in H.
  rewrite (where_single _ _ _ ces_nodup H) in E. injection E as <-. cbn. lia.
Qed.
Lemma found_block e k l : where_ (pair_eqb e) ces = k :: l -> exists b, nth_error (m_cells m) k = Some b /\ e = (dim_of b, lead (nth k g [])).
Proof.
  intros E. assert (H : In k (where_ (pair_eqb e) ces)) by (rewrite E; now left). apply where_entity in H.
  assert (Hl := nth_error_lt _ _ _ H). rewrite ces_length in Hl.
  destruct (nth_error (m_cells m) k) as [b|] eqn:Eb; [|apply nth_error_None in Eb; lia].
  exists b. split; [auto|]. rewrite (ces_nth _ _ Eb) in H. congruence.
Qed.

Definition ent_items (e : Z * Z) : list (item F) :=
  Int CInt (snd e) :: map Dbl (repeat zero (if (fst e =? 0)%Z then 3 else 6)) ++ Int CSize (Z.of_nat (length (phys_of e)))
  :: map (Int CInt) (phys_of e)
  ++ (if (0 <? fst e)%Z then Int CSize (Z.of_nat (length (bnd_of e))) :: map (Int CInt) (bnd_of e) else []).

Lemma nonempty_block k b : nth_error (m_cells m) k = Some b -> bdata b <> [].
Proof. intros H. apply nth_error_In in H. pose proof (w_blocks _ W) as Wb. rewrite Forall_forall in Wb. now apply Wb. Qed.

Lemma bounds_at bs k b : m_bounds m = Some bs -> nth_error (m_cells m) k = Some b ->
  exists ob, nth_error bs k = Some ob /\ match ob with
    | Some l => Forall (in_range CInt) l /\ in_range CSize (Z.of_nat (length l)) | None => dim_of b = 0%Z end.
Proof.
  intros Hbs Hk. pose proof (e_bounds _ _ He bs Hbs) as H. apply enumerate_nth in Hk.
  pose proof (enumerate_Forall2 _ _ _ None H) as E. destruct (Forall2_In_l _ _ _ _ E Hk) as (ob & Ho & H1 & H2). cbn [fst snd] in *.
  exists ob. split; [|exact H2]. apply enumerate_In in Hk. destruct Hk as [Hk _]. rewrite (Forall2_length _ _ _ H) in Hk.
  rewrite (nth_error_nth' _ None Hk). congruence.
Qed.

Lemma entity_row_ok e : In e dt -> entity_row zero m ces e = Ok (ent_items e).
Proof.
  intros Hin. destruct e as [dim tag]. unfold entity_row, ent_items. cbn [fst snd].
  replace (Nat.ltb 1 (length (where_ (pair_eqb (dim, tag)) ces))) with false by (pose proof (where_ces (dim, tag)); lia).
  replace (map Dbl (repeat zero (if (dim =? 0)%Z then 3 else 6))) with (repeat (Dbl zero) (if (dim =? 0)%Z then 3 else 6)) by now destruct (dim =? 0)%Z.
  destruct (where_ (pair_eqb (dim, tag)) ces) as [|k l] eqn:E.
  - cbn [bind]. unfold phys_of, bnd_of. rewrite E. destruct (m_bounds m); destruct (0 <? dim)%Z; reflexivity.
  - destruct (found_block _ _ _ E) as (b & Hb & Eb). pose proof (nonempty_block _ _ Hb) as Nb.
    destruct (w_phys _ W q Hq) as [Hpc _]. apply enumerate_nth in Hb.
    destruct (first_tag_ok _ _ _ _ Hpc Hb Nb) as (Hf & _). rewrite Hq, Hf. cbn [bind]. unfold phys_of, bnd_of. rewrite E.
    destruct (0 <? dim)%Z eqn:Ed; [|reflexivity].
    destruct (m_bounds m) as [bs|] eqn:Ebs; [|reflexivity]. apply enumerate_nth in Hb.
    destruct (bounds_at bs k b Ebs Hb) as (ob & Ho & Hob). rewrite Ho. cbn [of_option bind].
    rewrite (nth_error_nth _ _ _ Ho). injection Eb as Eb _. destruct ob as [l'|]; [reflexivity|]. lia.
Qed.
Lemma phys_range e : Forall (in_range CInt) (phys_of e) /\ length (phys_of e) <= 1.
Proof.
  unfold phys_of. destruct (where_ (pair_eqb e) ces) as [|k l] eqn:E; [split; [constructor|cbn; lia]|]. split; [|cbn; lia].
  destruct (found_block _ _ _ E) as (b & Hb & Eb). pose proof (nonempty_block _ _ Hb) as Nb.
  destruct (w_phys _ W q Hq) as [Hpc Hr]. apply enumerate_nth in Hb.
  destruct (first_tag_ok _ _ _ _ Hpc Hb Nb) as (_ & _ & _ & Hi). rewrite Forall_forall in Hr. specialize (Hr _ Hi).
  constructor; [|constructor]. destruct (nth k q []) as [|z a]; [cbn; lia|now inversion Hr].
Qed.
Lemma bnd_range e : Forall (in_range CInt) (bnd_of e) /\ in_range CSize (Z.of_nat (length (bnd_of e))).
Proof.
  assert (N : Forall (in_range CInt) [] /\ in_range CSize (Z.of_nat (length (@nil Z)))) by (split; [constructor|cbn; lia]).
  unfold bnd_of. destruct (m_bounds m) as [bs|] eqn:Ebs; [|exact N].
  destruct (where_ (pair_eqb e) ces) as [|k l] eqn:E; [exact N|].
  destruct (found_block _ _ _ E) as (b & Hb & Eb). destruct (bounds_at bs k b Ebs Hb) as (ob & Ho & Hob).
  rewrite (nth_error_nth _ _ _ Ho). destruct ob; [exact Hob|exact N].
Qed.
Lemma ent_items_ok e : In e dt -> Forall item_ok (ent_items e).
Proof.
  intros Hin. pose proof (e_dims _ _ He) as Hd. rewrite Forall_forall in Hd. destruct (Hd e Hin) as [_ Ht].
  destruct (phys_range e) as [P1 P2]. destruct (bnd_range e) as [B1 B2]. unfold ent_items. constructor; [exact Ht|].
  apply Forall_app. split; [apply Forall_map, Forall_forall; intros; exact I|]. constructor; [cbn; lia|]. apply Forall_app.
  split; [now apply Forall_map|]. destruct (0 <? fst e)%Z; [|constructor]. constructor; [exact B2|now apply Forall_map].
Qed.

Lemma read_entity_ok d e items s rest : In e dt -> fst e = Z.of_nat d -> holds s (ent_items e ++ items) rest ->
  exists s', read_entity p d s = Ok ((snd e, phys_of e, if Nat.eqb d 0 then [] else bnd_of e), s') /\ holds s' items rest.
Proof.
  intros Hin Ed H. pose proof (e_dims _ _ He) as Hd. rewrite Forall_forall in Hd. destruct (Hd e Hin) as [_ Ht].
  destruct (phys_range e) as [P1 P2]. destruct (bnd_range e) as [B1 B2]. unfold ent_items in H. cbn [app] in H.
  rewrite <- app_assoc in H. cbn [app] in H. rewrite <- app_assoc in H. unfold read_entity.
  destruct (get_one_ok p good holds Hp CInt _ _ _ _ Ht H) as (s1 & A1 & H1). rewrite A1. cbn [bind fst snd].
  destruct (floats_n p good holds Hp (if Nat.eqb d 0 then 3 else 6) (repeat zero (if (fst e =? 0)%Z then 3 else 6)) _ _ _ ltac:(rewrite repeat_length; rewrite Ed; destruct d; reflexivity) H1) as (s2 & A2 & H2).
  rewrite A2. cbn [bind fst snd].
  destruct (get_one_ok p good holds Hp CSize _ _ _ _ (ltac:(cbn; lia) : in_range CSize (Z.of_nat (length (phys_of e)))) H2) as (s3 & A3 & H3).
  rewrite A3. cbn [bind fst snd]. rewrite Nat2Z.id.
  destruct (ints_n p good holds Hp CInt _ (phys_of e) _ _ _ eq_refl P1 H3) as (s4 & A4 & H4). rewrite A4. cbn [bind fst snd].
  rewrite Ed in H4. destruct d as [|d]; cbn [Nat.eqb].
  - exists s4. split; [reflexivity|exact H4].
  - replace (0 <? Z.of_nat (S d))%Z with true in H4 by lia. cbn [app] in H4.
    destruct (get_one_ok p good holds Hp CSize _ _ _ _ B2 H4) as (s5 & A5 & H5). rewrite A5. cbn [bind fst snd]. rewrite Nat2Z.id.
    destruct (ints_n p good holds Hp CInt _ (bnd_of e) _ _ _ eq_refl B1 H5) as (s6 & A6 & H6). rewrite A6. cbn [bind fst snd].
    exists s6. auto.
Qed.
Lemma read_entities_of_ok d es items s rest pt be : incl es dt -> Forall (fun e => fst e = Z.of_nat d) es ->
  holds s (flat_map ent_items es ++ items) rest ->
  exists s', read_entities_of p d (length es) s pt be =
    Ok (rev (map (fun e => (e, phys_of e)) es) ++ pt, (if Nat.eqb d 0 then [] else rev (map (fun e => (e, bnd_of e)) es)) ++ be, s')
    /\ holds s' items rest.
Proof.
  intros Hi Hf. revert s pt be. induction Hf as [|e es He1 Hes IH]; intros s pt be H.
  - exists s. split; [destruct d; reflexivity|exact H].
  - cbn [flat_map] in H. rewrite <- app_assoc in H.
    destruct (read_entity_ok d e _ _ _ (Hi e (or_introl eq_refl)) He1 H) as (s1 & A1 & H1).
    assert (Hi' : incl es dt) by (intros x Hx; apply Hi; now right).
    destruct (IH Hi' s1 ((e, phys_of e) :: pt) (if Nat.eqb d 0 then be else (e, bnd_of e) :: be) H1) as (s2 & A2 & H2).
    exists s2. split; [|exact H2]. cbn [length read_entities_of]. rewrite A1. cbn [bind fst snd]. rewrite <- He1.
    replace (fst e, snd e) with e by now destruct e.
    destruct d as [|d]; cbn [Nat.eqb] in *; rewrite A2; cbn [map rev]; now rewrite <- !app_assoc.
Qed.
Lemma tag_get_ok (f : Z * Z -> list Z) d e : (forall e' l, In (e', l) d -> l = f e') -> In e (map fst d) -> tag_get e d = Some (f e).
Proof.
  induction d as [|[e' l] d IH]; intros H Hin; [destruct Hin|]. cbn [tag_get]. destruct (pair_eqb e e') eqn:E.
  - apply pair_eqb_eq in E. subst e'. now rewrite (H e l) by now left.
  - destruct Hin as [Hin|Hin]; [cbn in Hin; subst; rewrite pair_eqb_refl in E; discriminate|].
    apply IH; [intros; apply H; now right|auto].
Qed.
Let ents := punique dt.
Lemma ents_In e : In e ents <-> In e dt.
Proof. apply punique_In. Qed.
Lemma ents_dims : Forall (fun e => 0 <= fst e <= 3)%Z ents.
Proof.
  apply Forall_forall. intros e H. apply ents_In in H. pose proof (e_dims _ _ He) as Hd. rewrite Forall_forall in Hd. now apply Hd.
Qed.

Definition dicts_ok (pt be : tagdict) : Prop :=
  forall e, In e dt -> tag_get e pt = Some (phys_of e) /\ ((0 < fst e)%Z -> tag_get e be = Some (bnd_of e)).

Lemma entities_section : exists u pt be, write_entities zero p m = Ok (opening p "Entities" ++ u) /\ dicts_ok pt be /\
  forall rest, good rest -> read_entities p (u ++ rest) = Ok (pt, be, rest) /\ good (u ++ rest).
Proof.
  unfold write_entities. rewrite Hdt. fold ents.
  replace (negb (forallb (fun e => (0 <=? fst e)%Z && (fst e <=? 3)%Z) ents)) with false.
  2:{ symmetry. apply negb_false_iff, forallb_forall. intros e Hi. pose proof ents_dims as D. rewrite Forall_forall in D. specialize (D e Hi). lia. }
  rewrite (mapM_ok_in _ (fun ib => (dim_of (snd ib), lead (nth (fst ib) g [])))).
  2:{ intros [i b] Hin. unfold block_entity. cbn [fst snd].
      assert (Hb : In b (m_cells m)) by (now apply enumerate_In in Hin).
      pose proof (w_blocks _ W) as Wb. rewrite Forall_forall in Wb. destruct (Wb b Hb) as [[Gb Kb] Nb].
      destruct (dim_range b Gb Kb) as [D1 D2]. rewrite D2. cbn [bind]. destruct (w_geom _ W g Hg) as [Hpc _].
      destruct (first_tag_ok _ _ _ _ Hpc Hin Nb) as (Hf & _). rewrite Hg, Hf. cbn [bind]. now rewrite Z2Nat.id by lia. }
  cbn [bind]. rewrite <- ces_enum. rewrite (mapM_ok_in _ ent_items) by (intros e Hi; apply entity_row_ok; now apply ents_In).
  cbn [bind].
  assert (Hc : Forall (fun d => in_range CSize (count_dim ents d)) [0; 1; 2; 3]%Z).
  { apply Forall_forall. intros d _. unfold count_dim. cbn. pose proof (proj2 (w_points _ W)) as Wp. pose proof (e_length _ _ He) as El.
    assert (length (filter (fun e => (fst e =? d)%Z) ents) <= length ents).
    { clear. induction ents as [|x l IH]; cbn; [lia|]. destruct (fst x =? d)%Z; cbn; lia. }
    assert (length ents <= length dt).
    { apply NoDup_incl_length; [|intros x; apply ents_In]. apply (SS_NoDup pair_less); [unfold pair_less; lia|apply punique_sorted]. }
    lia. }
  eexists _, 
    (rev (map (fun e => (e, phys_of e)) (of_dim 3 ents)) ++ rev (map (fun e => (e, phys_of e)) (of_dim 2 ents)) ++
     rev (map (fun e => (e, phys_of e)) (of_dim 1 ents)) ++ rev (map (fun e => (e, phys_of e)) (of_dim 0 ents)) ++ []),
    (rev (map (fun e => (e, bnd_of e)) (of_dim 3 ents)) ++ rev (map (fun e => (e, bnd_of e)) (of_dim 2 ents)) ++
     rev (map (fun e => (e, bnd_of e)) (of_dim 1 ents)) ++ [] ++ []).
  split; [reflexivity|]. split.
  - intros e Hin. apply ents_In in Hin. pose proof ents_dims as D. rewrite Forall_forall in D. specialize (D e Hin). split.
    + apply tag_get_ok.
      * intros e' l. rewrite !in_app_iff, <- !in_rev, !in_map_iff. intros [H|[H|[H|[H|[]]]]]; destruct H as (x & H & _); congruence.
      * rewrite !map_app, !map_rev, !map_map, !in_app_iff, <- !in_rev. cbn [fst]. rewrite !map_id, !of_dim_In.
        assert (fst e = 0 \/ fst e = 1 \/ fst e = 2 \/ fst e = 3)%Z by lia. tauto.
    + intros Hpos. apply tag_get_ok.
      * intros e' l. rewrite !in_app_iff, <- !in_rev, !in_map_iff. intros [H|[H|[H|[[]|[]]]]]; destruct H as (x & H & _); congruence.
      * rewrite !map_app, !map_rev, !map_map, !in_app_iff, <- !in_rev. cbn [fst]. rewrite !map_id, !of_dim_In.
        assert (fst e = 1 \/ fst e = 2 \/ fst e = 3)%Z by lia. tauto.
  - intros rest Hrest. rewrite <- app_assoc.
    assert (Gc : good (closing p "Entities" ++ rest)) by (apply (ok_good_close _ _ _ Hp); [reflexivity|exact Hrest]).
    assert (Rok : rows_ok (map (fun d => Int CSize (count_dim ents d)) [0; 1; 2; 3]%Z :: map ent_items ents)).
    { constructor; [split; [discriminate|now apply Forall_map]|]. apply Forall_map, Forall_forall. intros e Hi. split; [discriminate|].
      apply ent_items_ok. now apply ents_In. }
    split; [|apply (ok_good_put _ _ _ Hp); auto].
    pose proof (ok_put _ _ _ Hp _ _ Gc Rok) as H. cbn [concat] in H. rewrite <- flat_map_concat_map in H.
    inversion Hc as [|? ? C0 Hc1]; subst. inversion Hc1 as [|? ? C1 Hc2]; subst. inversion Hc2 as [|? ? C2 Hc3]; subst. inversion Hc3 as [|? ? C3 _]; subst.
    cbn [map app] in H. unfold read_entities.
    destruct (ints4_ok p good holds Hp CSize _ _ _ _ _ _ _ C0 C1 C2 C3 H) as (s0 & A0 & H0). cbn [map] in A0 |- *. rewrite A0. cbn [bind fst snd].
    rewrite (split_dims ents (punique_sorted dt) ents_dims) in H0. rewrite !flat_map_app in H0.
    assert (I : forall d, incl (of_dim d ents) dt) by (intros d x Hx; apply of_dim_In in Hx; apply ents_In; tauto).
    assert (D : forall d, Forall (fun e => fst e = Z.of_nat d) (of_dim (Z.of_nat d) ents)) by (intros d; apply Forall_forall; intros x Hx; now apply of_dim_In in Hx).
    assert (L : forall d, Z.to_nat (count_dim ents d) = length (of_dim d ents)) by (intros d; unfold count_dim; now rewrite Nat2Z.id).
    cbn [read_dims]. rewrite !L.
    destruct (read_entities_of_ok 0 (of_dim 0 ents) _ _ _ [] [] (I _) (D 0) H0) as (s1 & A1 & H1). rewrite A1. cbn [bind].
    destruct (read_entities_of_ok 1 (of_dim 1 ents) _ _ _ (rev (map (fun e => (e, phys_of e)) (of_dim 0 ents)) ++ []) ([] ++ []) (I _) (D 1) H1) as (s2 & A2 & H2).
    cbn [Nat.eqb]. rewrite A2. cbn [bind].
    match type of A2 with _ = Ok (?a, ?b, _) => destruct (read_entities_of_ok 2 (of_dim 2 ents) _ _ _ a b (I _) (D 2) H2) as (s3 & A3 & H3) end.
    rewrite A3. cbn [bind].
    match type of A3 with _ = Ok (?a, ?b, _) => destruct (read_entities_of_ok 3 (of_dim 3 ents) [] s3 (closing p "Entities" ++ rest) a b (I _) (D 3)) as (s4 & A4 & H4) end.
    { rewrite app_nil_r. exact H3. }
    rewrite A4. cbn [bind]. now rewrite (ok_nil _ _ _ Hp _ _ H4), (ok_skip _ _ _ Hp) by auto.
Qed.

(** What the reader looks up for every block. *)
Lemma block_lookup pt be i b : dicts_ok pt be -> In (i, b) (enumerate (m_cells m)) ->
  tag_lookup (dim_of b, tag_at m i) pt = Ok [lead (nth i q [])] /\
  ((0 < dim_of b)%Z -> tag_lookup (dim_of b, tag_at m i) be =
     Ok match m_bounds m with Some bs => match nth i bs None with Some l => l | None => [] end | None => [] end).
Proof.
  intros Hd Hin. apply enumerate_nth in Hin. pose proof (ces_nth _ _ Hin) as Hc. unfold tag_at. rewrite Hg.
  pose proof (nth_error_In _ _ Hc) as Hi. apply ces_incl in Hi. destruct (Hd _ Hi) as [H1 H2].
  pose proof (e_dims _ _ He) as Hdd. rewrite Forall_forall in Hdd. destruct (Hdd _ Hi) as [D _]. cbn [fst] in D, H2.
  pose proof (where_single _ _ _ ces_nodup Hc) as Ew. unfold tag_lookup. cbn [fst].
  replace ((0 <=? dim_of b)%Z && (dim_of b <=? 3)%Z) with true by lia. split.
  - rewrite H1. unfold phys_of. rewrite Ew. reflexivity.
  - intros Hpos. rewrite H2 by auto. unfold bnd_of. rewrite Ew. destruct (m_bounds m); reflexivity.
Qed.
End Entities.

(** ** The sections of a file *)
Inductive runs : list (unt p) -> state41 -> state41 -> nat -> Prop :=
| runs_nil st : runs [] st st 0
| runs_cons env u rest st st' st'' n :
    word env = true -> good (u ++ rest) -> read_section41 p env (u ++ rest) st = Ok (st', rest) ->
    runs rest st' st'' n -> runs (opening p env ++ u ++ rest) st st'' (S n).
Definition leads (s : list (unt p)) (st st' : state41) : Prop := good s /\ exists n, runs s st st' n.

Lemma runs_read s st st' n f : runs s st st' n -> n < f -> read_sections41 p f s st = Ok st'.
Proof.
  intros H. revert f. induction H as [|env u rest st st' st'' n Hw Hg Hs Hr IH]; intros f Hf; (destruct f as [|f]; [lia|]); cbn [read_sections41].
  - now rewrite (proj1 (ok_end _ _ _ Hp)).
  - rewrite (proj1 (ok_open _ _ _ Hp env (u ++ rest) Hw Hg)). cbn [bind]. rewrite Hs. cbn [bind fst snd]. apply IH. lia.
Qed.
Lemma runs_length s st st' n : runs s st st' n -> n <= length s.
Proof.
  induction 1 as [|env u rest st st' st'' n Hw Hg Hs Hr IH]; cbn [length]; [lia|]. rewrite !app_length.
  destruct (ok_open _ _ _ Hp env (u ++ rest) Hw Hg) as (_ & _ & _ & Hne). destruct (opening p env); [congruence|]. cbn [length]. lia.
Qed.
Lemma leads_read s st st' : leads s st st' -> read_sections41 p (S (length s)) s st = Ok st'.
Proof. intros [_ [n H]]. pose proof (runs_length _ _ _ _ H). apply (runs_read _ _ _ _ _ H). lia. Qed.
Lemma leads_nil st : leads [] st st.
Proof. split; [apply (ok_good_nil _ _ _ Hp)|]. exists 0. constructor. Qed.
Lemma leads_cons env u rest st st' st'' : word env = true -> good (u ++ rest) ->
  read_section41 p env (u ++ rest) st = Ok (st', rest) -> leads rest st' st'' -> leads (opening p env ++ u ++ rest) st st''.
Proof.
  intros Hw Hg Hs [_ [n Hr]]. split; [apply (ok_open _ _ _ Hp env (u ++ rest) Hw Hg)|]. exists (S n). econstructor; eauto.
Qed.

Lemma components41_ok (rows : list (list F)) : gmsh_rows41 rows ->
  In (components41 rows) [1; 3; 9] /\ Forall (fun r => length r = components41 rows) rows.
Proof.
  intros (nc & Hn & Hr). destruct rows as [|r rows]; cbn [components41]; [split; [now left|constructor]|].
  inversion Hr; subst. auto.
Qed.
Definition fine_data (d : dict (list (list F))) : Prop :=
  Forall plain_name (dkeys d) /\ Forall (fun kv => gmsh_rows41 (snd kv) /\ (Z.of_nat (length (snd kv)) < 2 ^ 31 - 1)%Z) d.
Lemma node_data_leads d : fine_data d ->
  exists secs, mapM (fun kv => put_data p "NodeData" (fst kv) (components41 (snd kv)) (snd kv)) d = Ok secs /\
    forall nd el en nm pe pd cr rest st'', leads rest (State41 nd el en nm pe (dupdate pd d) cr) st'' ->
      leads (concat secs ++ rest) (State41 nd el en nm pe pd cr) st''.
Proof.
  intros [Hk Hr]. induction d as [|[k rows] d IH].
  - exists []. split; [reflexivity|]. intros. exact H.
  - cbn [dkeys map fst] in Hk. inversion Hk as [|? ? Hk1 Hk2]; subst. inversion Hr as [|? ? [Hr1 Hr1'] Hr2]; subst. cbn [fst snd] in *.
    destruct (IH Hk2 Hr2) as (secs & E & HL). destruct (components41_ok rows Hr1) as [C1 C2].
    destruct (ok_data _ _ _ Hp "NodeData" k (components41 rows) rows eq_refl eq_refl Hk1 C1 C2 Hr1') as (u & A & B).
    exists ((opening p "NodeData" ++ u) :: secs). cbn [mapM fst snd]. rewrite A. cbn [bind]. rewrite E. split; [reflexivity|].
    intros nd el en nm pe pd cr rest st'' H. cbn [concat]. rewrite <- !app_assoc.
    specialize (HL nd el en nm pe (dset k rows pd) cr rest st'' H).
    destruct (B pd (concat secs ++ rest) (proj1 HL)) as [B1 B2].
    eapply leads_cons; [reflexivity|exact B2| |exact HL].
    change (read_section41 p "NodeData" (u ++ concat secs ++ rest) (State41 nd el en nm pe pd cr))
      with (do r <- get_data p "NodeData" pd (u ++ concat secs ++ rest); Ok (State41 nd el en nm pe (fst r) cr, snd r)).
    rewrite B1. reflexivity.
Qed.
Lemma cell_data_leads d : fine_data d ->
  exists secs, mapM (fun kv => put_data p "ElementData" (fst kv) (components41 (snd kv)) (snd kv)) d = Ok secs /\
    forall nd el en nm pe pd cr rest st'', leads rest (State41 nd el en nm pe pd (dupdate cr d)) st'' ->
      leads (concat secs ++ rest) (State41 nd el en nm pe pd cr) st''.
Proof.
  intros [Hk Hr]. induction d as [|[k rows] d IH].
  - exists []. split; [reflexivity|]. intros. exact H.
  - cbn [dkeys map fst] in Hk. inversion Hk as [|? ? Hk1 Hk2]; subst. inversion Hr as [|? ? [Hr1 Hr1'] Hr2]; subst. cbn [fst snd] in *.
    destruct (IH Hk2 Hr2) as (secs & E & HL). destruct (components41_ok rows Hr1) as [C1 C2].
    destruct (ok_data _ _ _ Hp "ElementData" k (components41 rows) rows eq_refl eq_refl Hk1 C1 C2 Hr1') as (u & A & B).
    exists ((opening p "ElementData" ++ u) :: secs). cbn [mapM fst snd]. rewrite A. cbn [bind]. rewrite E. split; [reflexivity|].
    intros nd el en nm pe pd cr rest st'' H. cbn [concat]. rewrite <- !app_assoc.
    specialize (HL nd el en nm pe pd (dset k rows cr) rest st'' H).
    destruct (B cr (concat secs ++ rest) (proj1 HL)) as [B1 B2].
    eapply leads_cons; [reflexivity|exact B2| |exact HL].
    change (read_section41 p "ElementData" (u ++ concat secs ++ rest) (State41 nd el en nm pe pd cr))
      with (do r <- get_data p "ElementData" cr (u ++ concat secs ++ rest); Ok (State41 nd el en nm pe pd (fst r), snd r)).
    rewrite B1. reflexivity.
Qed.

Lemma per_cell_fits {V} bs (d : list (list V)) : per_cell bs d -> lengths_fit bs d = true.
Proof.
  intros H. unfold lengths_fit. rewrite <- (Forall2_length _ _ _ H), Nat.eqb_refl. cbn [andb].
  induction H as [|b a bs d E H IH]; [reflexivity|]. cbn [combine forallb fst snd]. now rewrite E, Nat.eqb_refl.
Qed.
Lemma per_cell_moved {V} order bs (d : list (list V)) : per_cell bs d -> per_cell (map (moved order) bs) d.
Proof.
  unfold per_cell. intros H. apply Forall2_map_l. eapply Forall2_impl'; [|exact H]. intros b a ->. unfold moved, blen. cbn [bdata]. now rewrite map_length.
Qed.
Lemma moved_blen order bs : map blen (map (moved order) bs) = map blen bs.
Proof. rewrite map_map. apply map_ext. intros b. unfold moved, blen. cbn [bdata]. apply map_length. Qed.
Lemma per_cell_blen {V} bs (d : list (list V)) : per_cell bs d -> map (@length V) d = map blen bs.
Proof. induction 1; [reflexivity|]. cbn. congruence. Qed.

Lemma sum_concat {V} bs (d : list (list V)) : per_cell bs d -> length (concat d) = sum_nat (map blen bs).
Proof. intros H. rewrite <- (per_cell_blen _ _ H). clear. unfold sum_nat. induction d; [reflexivity|]. cbn. rewrite app_length. now rewrite IHd. Qed.

Lemma file_ok m gs ent ents u0 P B S :
  msh41_mesh m -> node_groups m = Ok gs -> groups_of ent gs ->
  Permutation (concat (map snd gs)) (seq 0 (length (m_points m))) ->
  Forall (fun g => in_range CInt (fst (fst g)) /\ in_range CInt (snd (fst g))) gs -> length gs <= length (m_points m) ->
  write_entities zero p m = Ok u0 ->
  (forall nm rest st', leads rest (State41 None None ents nm None [] []) st' ->
                       leads (u0 ++ rest) (State41 None None None nm None [] []) st') ->
  (forall ib, In ib (enumerate (m_cells m)) -> physical_of (option_map fst ents) (rb_of m ib) = Ok (P ib)) ->
  (forall ib, In ib (enumerate (m_cells m)) -> bounds_of (option_map snd ents) (rb_of m ib) = Ok (B ib)) ->
  (forall nd ib, In ib (enumerate (m_cells m)) -> set_part (option_map fst ents) nd (rb_of m ib) = Ok (S nd ib)) ->
  match physical_arrays (map (rb_of m) (enumerate (m_cells m))) (map P (enumerate (m_cells m))) with
  | Some l => per_cell (m_cells m) l | None => True end ->
  exists s names, write41 zero p m = Ok s /\ (forall k, dget k names = dget k (m_names m)) /\
    read41 p s = Ok (Mesh41 (map (fun i => nth i (in_space zero (m_points m)) []) (concat (map snd gs)))
      (map (moved (concat (map snd gs))) (m_cells m)) (Some (map ent (concat (map snd gs))))
      (physical_arrays (map (rb_of m) (enumerate (m_cells m))) (map P (enumerate (m_cells m))))
      (Some (map (fun ib => repeat (tag_at m (fst ib)) (blen (snd ib))) (enumerate (m_cells m))))
      match ents with Some _ => Some (map B (enumerate (m_cells m))) | None => None end
      names (map (fun kv => (fst kv, map (S (snd kv)) (enumerate (m_cells m)))) names)
      (option_map (map link_read) (m_periodic m)) (m_pdata m) (m_cdata m)).
Proof.
  intros W Hgs Hent HP Hr Hl Hu0 Hleads H1 H2 H3 Hphys. set (order := concat (map snd gs)) in *.
  destruct (nodes_section zero p good holds Hp m gs ent Hgs Hent HP (proj2 (w_points _ W)) (w_coords _ W) Hr Hl) as (un & An & Bn).
  destruct (elements_section p good holds Hp m order ents P B S W HP H1 H2 H3) as (ue & Ae & Be).
  set (raw := map (fun kv => (fst kv, concat (snd kv))) (m_cdata m)).
  pose proof (w_cdata _ W) as Wc. pose proof (w_pdata _ W) as Wp.
  assert (Hne : m_cells m <> []) by apply (w_cells _ W).
  assert (Wr : raw_from_cell_data (m_cdata m) = Ok raw).
  { unfold raw_from_cell_data. apply mapM_ok_in. intros [k d] Hin. rewrite Forall_forall in Wc.
    destruct (Wc _ Hin) as (Hpc & _). cbn [snd fst] in *. destruct d; [|reflexivity]. inversion Hpc; congruence. }
  assert (Hkc : dkeys raw = dkeys (m_cdata m)) by (unfold raw, dkeys; now rewrite map_map).
  destruct (node_data_leads (m_pdata m)) as (pd & Apd & Bpd).
  { split; [apply (w_pdata_names _ W)|]. eapply Forall_impl; [|exact Wp]. intros kv [E1 E2]. split; [exact E2|]. rewrite E1. apply (w_points _ W). }
  destruct (cell_data_leads raw) as (cd & Acd & Bcd).
  { split; [rewrite Hkc; apply (w_cdata_names _ W)|]. unfold raw. apply Forall_map. eapply Forall_impl; [|exact Wc]. cbn [snd].
    intros kv [E1 E2]. split; [exact E2|]. rewrite (sum_concat _ _ E1). apply (w_total _ W). }
  unfold write41. rewrite Hu0. cbn [bind]. rewrite An. cbn [bind]. rewrite Ae. cbn [bind]. rewrite Apd. cbn [bind]. rewrite Wr. cbn [bind].
  rewrite Acd. cbn [bind].
  set (el := fun nm : dict (Z * Z) => Elements41 (map (moved order) (m_cells m)) (physical_arrays (map (rb_of m) (enumerate (m_cells m))) (map P (enumerate (m_cells m))))
              (Some (map (fun ib => repeat (tag_at m (fst ib)) (blen (snd ib))) (enumerate (m_cells m))))
              (map (fun kv => (fst kv, map (S (snd kv)) (enumerate (m_cells m)))) nm)
              match ents with Some _ => Some (map B (enumerate (m_cells m))) | None => None end).
  set (nd := nodes_read ent (in_space zero (m_points m)) order) in *.
  set (fin := fun nm => State41 (F:=F) (Some nd) (Some (el nm)) ents nm (option_map (map link_read) (m_periodic m)) (m_pdata m) raw).
  set (tail := u0 ++ (opening p "Nodes" ++ un) ++ (opening p "Elements" ++ ue)
      ++ match m_periodic m with Some ks => write_periodic41 p ks | None => [] end ++ concat pd ++ concat cd).
  assert (T : forall nm, leads tail (State41 None None None nm None [] []) (fin nm)).
  { intros nm. unfold tail. apply Hleads. rewrite <- !app_assoc.
    assert (L1 : leads (concat pd ++ concat cd) (State41 (Some nd) (Some (el nm)) ents nm (option_map (map link_read) (m_periodic m)) [] []) (fin nm)).
    { apply Bpd. rewrite (dupdate_nil (m_pdata m)) by apply (w_pdata_names _ W).
      rewrite <- (app_nil_r (concat cd)). apply Bcd. rewrite dupdate_nil by (rewrite Hkc; apply (w_cdata_names _ W)). apply leads_nil. }
    assert (L2 : leads (match m_periodic m with Some ks => write_periodic41 p ks | None => [] end ++ concat pd ++ concat cd)
                   (State41 (Some nd) (Some (el nm)) ents nm None [] []) (fin nm)).
    { destruct (m_periodic m) as [ks|] eqn:Ek; [|exact L1]. destruct (w_periodic _ W ks Ek) as [K1 K2].
      destruct (periodic_section p good holds Hp ks K1 K2) as (uk & Ak & Bk). rewrite Ak, <- app_assoc.
      destruct (Bk _ (proj1 L1)) as [B1 B2]. eapply leads_cons; [reflexivity|exact B2| |exact L1].
      match goal with |- read_section41 p "Periodic" ?s (State41 ?a ?b ?c ?d ?e ?f ?g) = _ =>
        change (read_section41 p "Periodic" s (State41 a b c d e f g)) with (do r <- read_periodic41 p s; Ok (State41 a b c d (Some (fst r)) f g, snd r)) end.
      rewrite B1. reflexivity. }
    assert (L3 : leads (opening p "Elements" ++ ue ++ match m_periodic m with Some ks => write_periodic41 p ks | None => [] end ++ concat pd ++ concat cd)
                   (State41 (Some nd) None ents nm None [] []) (fin nm)).
    { destruct (Be nm _ (proj1 L2)) as [B1 B2]. eapply leads_cons; [reflexivity|exact B2| |exact L2].
      match goal with |- read_section41 p "Elements" ?s (State41 (Some ?a) ?b ?c ?d ?e ?f ?g) = _ =>
        change (read_section41 p "Elements" s (State41 (Some a) b c d e f g)) with
          (do r <- read_elements41 p (map (fun x => fst (fst x)) a) c d s; Ok (State41 (Some a) (Some (fst r)) c d e f g, snd r)) end.
      assert (En : map (fun x => fst (fst x)) nd = map Z.of_nat order) by (unfold nd, nodes_read; now rewrite map_map).
      rewrite En, B1. reflexivity. }
    destruct (Bn _ (proj1 L3)) as [B1 B2]. eapply leads_cons; [reflexivity|exact B2| |exact L3].
    match goal with |- read_section41 p "Nodes" ?s (State41 ?a ?b ?c ?d ?e ?f ?g) = _ =>
        change (read_section41 p "Nodes" s (State41 a b c d e f g)) with (do r <- read_nodes41 p s; Ok (State41 (Some (fst r)) b c d e f g, snd r)) end.
    rewrite B1. reflexivity. }
  assert (N : exists names, (forall k, dget k names = dget k (m_names m)) /\
     leads (text p (write_physical_names (m_names m)) ++ tail) start41 (fin names)).
  { destruct (w_names _ W) as [N1 N2]. destruct (m_names m) as [|x names] eqn:Em.
    - exists []. split; [reflexivity|]. rewrite (ok_no_names _ _ _ Hp). apply T.
    - destruct (ok_names _ _ _ Hp (x :: names) tail N1 N2 ltac:(discriminate) (proj1 (T []))) as (u & fd' & A & B1 & C & D & _).
      exists fd'. split; [exact D|]. rewrite A, <- app_assoc. eapply leads_cons; [reflexivity|exact C| |exact (T fd')].
      match goal with |- read_section41 p "PhysicalNames" ?s start41 = _ =>
        change (read_section41 p "PhysicalNames" s start41) with (do r <- get_names p [] s; Ok (State41 (F:=F) None None None (fst r) None [] [], snd r)) end.
      rewrite B1. reflexivity. }
  destruct N as (names & Hnames & L). eexists _, names. split; [reflexivity|]. split; [exact Hnames|].
  unfold read41. rewrite (ok_header _ _ _ Hp "4.1" _ eq_refl (proj1 L)). cbn [bind fst snd].
  change (smem "4.1" ["4"; "4.1"]%string) with true. cbn iota. unfold read_buffer41. rewrite (leads_read _ _ _ L). unfold fin. cbn [bind s_elements s_nodes s_raw s_pdata s_names s_links].
  unfold el. cbn [el_cells el_phys el_geom el_sets el_bounds].
  assert (Ecd : cell_data_from_raw (map blen (map (moved order) (m_cells m))) raw = m_cdata m).
  { rewrite moved_blen. unfold cell_data_from_raw, raw. rewrite map_map. apply map_id_in. intros [k d] Hin. cbn [fst snd]. f_equal.
    rewrite Forall_forall in Wc. destruct (Wc _ Hin) as (Hpc & _). cbn [snd] in Hpc. rewrite <- (per_cell_blen _ _ Hpc).
    apply from_raw_to_raw. intros ->. inversion Hpc. congruence. }
  rewrite Ecd.
  assert (Lp : length (map (fun x => snd (fst x)) nd) = length (m_points m)).
  { unfold nd, nodes_read. rewrite !map_length, (Permutation_length HP). apply seq_length. }
  rewrite Lp.
  replace (forallb (fun kv => Nat.eqb (length (snd kv)) (length (m_points m))) (m_pdata m)) with true.
  2:{ symmetry. apply forallb_forall. intros kv Hin. rewrite Forall_forall in Wp. destruct (Wp _ Hin) as [E _]. rewrite E. apply Nat.eqb_refl. }
  replace (forallb (fun kv => lengths_fit (map (moved order) (m_cells m)) (snd kv)) (m_cdata m)) with true.
  2:{ symmetry. apply forallb_forall. intros kv Hin. rewrite Forall_forall in Wc. destruct (Wc _ Hin) as [E _]. now apply per_cell_fits, per_cell_moved. }
  replace (match physical_arrays (map (rb_of m) (enumerate (m_cells m))) (map P (enumerate (m_cells m))) with
           | Some d => lengths_fit (map (moved order) (m_cells m)) d | None => true end) with true.
  2:{ destruct (physical_arrays _ _); [|reflexivity]. symmetry. now apply per_cell_fits, per_cell_moved. }
  cbn [andb]. f_equal. f_equal; unfold nd, nodes_read; now rewrite !map_map.
Qed.

Lemma moved_cells (m : mesh41 F) order : msh41_mesh m -> Permutation order (seq 0 (length (m_points m))) ->
  Forall2 (fun b b' => btype b' = btype b /\
    Forall2 (Forall2 (fun i i' => (0 <= i')%Z /\ nth_error order (Z.to_nat i') = Some (Z.to_nat i)))
      (bdata b) (bdata b')) (m_cells m) (map (moved order) (m_cells m)).
Proof.
  intros W HP. pose proof (w_index _ W) as Wi.
  assert (Np : 0 < length (m_points m)) by (pose proof (proj1 (w_points _ W)) as E; destruct (m_points m); [congruence|cbn; lia]).
  induction Wi as [|b bs Hb Hbs IH]; [constructor|]. cbn [map]. constructor; [|exact IH]. split; [reflexivity|]. cbn [moved bdata].
  unfold indices_below in Hb. clear - Hb HP Np. induction Hb as [|c cs Hc Hcs IH]; [constructor|]. cbn [map]. constructor; [|exact IH].
  induction Hc as [|i c Hi Hc IHc]; [constructor|]. cbn [map]. constructor; [|exact IHc]. now apply (pos_order order (length (m_points m)) HP).
Qed.

Lemma geom_read (m : mesh41 F) : msh41_mesh m ->
  map (fun ib => repeat (tag_at m (fst ib)) (blen (snd ib))) (enumerate (m_cells m)) =
  match m_geom m with Some g => leading g | None => map (fun b => repeat 0%Z (blen b)) (m_cells m) end.
Proof.
  intros W. unfold tag_at. pose proof (w_geom _ W) as Wg. destruct (m_geom m) as [g|].
  - destruct (Wg g eq_refl) as [H _]. pose proof (enumerate_Forall2 _ _ _ [] H) as E. unfold leading. clear H.
    assert (G : forall (h : list (list Z)) l d, Forall2 (fun kb col => nth (fst kb) h [] = col /\ length col = blen (snd kb)) l d ->
       map (fun ib => repeat (lead (nth (fst ib) h [])) (blen (snd ib))) l = map (fun a => repeat (lead a) (length a)) d).
    { clear. induction 1 as [|x a l d [H1 H2] H IH]; [reflexivity|]. cbn [map]. rewrite IH, H1, H2. reflexivity. }
    exact (G _ _ _ E).
  - rewrite <- (map_map snd (fun b => repeat 0%Z (blen b))). now rewrite enumerate_snd.
Qed.
Lemma leading_fits bs (d : list (list Z)) : per_cell bs d -> per_cell bs (leading d).
Proof. unfold per_cell, leading. induction 1; cbn; constructor; auto. now rewrite repeat_length. Qed.

Lemma phys_read (m : mesh41 F) q : m_cells m <> [] -> per_cell (m_cells m) q ->
  physical_arrays (map (rb_of m) (enumerate (m_cells m))) (map (fun ib => [lead (nth (fst ib) q [])]) (enumerate (m_cells m))) = Some (leading q).
Proof.
  intros Hne H. unfold physical_arrays. rewrite combine_map_both.
  assert (E : flat_map (fun bt : rblock * list Z => match snd bt with [] => [] | t :: _ => [repeat t (length (rb_rows (fst bt)))] end)
                (map (fun ib => (rb_of m ib, [lead (nth (fst ib) q [])])) (enumerate (m_cells m))) = leading q).
  { pose proof (enumerate_Forall2 _ _ _ [] H) as E. clear H.
    assert (G : forall (h : list (list Z)) l d, Forall2 (fun kb col => nth (fst kb) h [] = col /\ length col = blen (snd kb)) l d ->
       flat_map (fun bt : rblock * list Z => match snd bt with [] => [] | t :: _ => [repeat t (length (rb_rows (fst bt)))] end)
                (map (fun ib => (rb_of m ib, [lead (nth (fst ib) h [])])) l) = leading d).
    { clear. unfold leading. induction 1 as [|x a l d [H1 H2] H IH]; [reflexivity|]. cbn [map flat_map snd fst]. rewrite IH.
      cbn [app]. unfold rb_of. cbn [rb_rows]. rewrite map_length. fold (blen (snd x)). now rewrite H1, H2. }
    exact (G _ _ _ E). }
  rewrite E. destruct (leading q) eqn:El; [|reflexivity]. unfold leading in El. apply map_eq_nil in El. subst q. inversion H. congruence.
Qed.

Lemma msh41_roundtrip m : msh41_mesh m ->
  exists s m' order, write41 zero p m = Ok s /\ read41 p s = Ok m' /\ kept41 zero m m' order /\
    match m_dim_tags m with Some dt => by_entity dt order | None => order = seq 0 (length (m_points m)) end.
Proof.
  intros W. pose proof (w_entities _ W) as We. destruct (m_dim_tags m) as [dt|] eqn:Edt.
  - (* entities *)
    destruct (e_geom _ _ We) as (g & Hg & _). destruct (e_phys _ _ We) as (q & Hq).
    destruct (entities_section m dt g q W We Edt Hg Hq) as (u & pt & be & Au & Hd & Bu).
    assert (Hgs : node_groups m = Ok (map (fun e => (e, where_ (pair_eqb e) dt)) (punique dt))) by (unfold node_groups; now rewrite Edt).
    assert (Eo : concat (map snd (map (fun e => (e, where_ (pair_eqb e) dt)) (punique dt))) = node_order dt) by (unfold node_order; now rewrite map_map).
    pose proof (node_order_by_entity dt) as Hby.
    destruct (file_ok m _ (fun i => nth i dt (0, 0)%Z) (Some (pt, be)) (opening p "Entities" ++ u) (fun ib => [lead (nth (fst ib) q [])])
      (fun ib => if Z.eqb (dim_of (snd ib)) 0 then None
                 else Some match m_bounds m with Some bs => match nth (fst ib) bs None with Some l => l | None => [] end | None => [] end)
      (fun nd ib => if Z.eqb (snd nd) (dim_of (snd ib)) && Z.eqb (fst nd) (lead (nth (fst ib) q [])) then seq 0 (blen (snd ib)) else [])
      W Hgs) as (s & names & A & N & R).
    + apply Forall_map, Forall_forall. intros e _. cbn [fst snd]. apply Forall_forall. intros i Hi. apply where_entity in Hi. now apply nth_error_nth.
    + rewrite Eo. rewrite <- (e_length _ _ We). apply Hby.
    + apply Forall_map, Forall_forall. intros e Hi. cbn [fst snd]. apply (proj1 (punique_In _ _)) in Hi. pose proof (e_dims _ _ We) as D. rewrite Forall_forall in D.
      destruct (D e Hi) as [D1 D2]. split; [cbn; lia|exact D2].
    + rewrite map_length, <- (e_length _ _ We). apply NoDup_incl_length; [|intros x; apply punique_In].
      apply (SS_NoDup pair_less); [unfold pair_less; lia|apply punique_sorted].
    + exact Au.
    + intros nm rest st' L. rewrite <- app_assoc. destruct (Bu rest (proj1 L)) as [B1 B2]. eapply leads_cons; [reflexivity|exact B2| |exact L].
      match goal with |- read_section41 p "Entities" ?s (State41 ?a ?b ?c ?d ?e ?f ?g) = _ =>
        change (read_section41 p "Entities" s (State41 a b c d e f g)) with
          (do r <- read_entities p s; let '(pt, be, s') := r in Ok (State41 a b (Some (pt, be)) d e f g, s')) end.
      rewrite B1. reflexivity.
    + intros [i b] Hin. cbn [option_map fst snd]. unfold physical_of, rb_of. cbn [rb_entity fst snd].
      now apply (block_lookup m dt g q W We Hg pt be i b Hd Hin).
    + intros [i b] Hin. cbn [option_map fst snd]. unfold bounds_of, rb_of. cbn [rb_entity fst snd].
      destruct (block_lookup m dt g q W We Hg pt be i b Hd Hin) as [_ H2].
      assert (Hb : In b (m_cells m)) by (now apply enumerate_In in Hin). pose proof (w_blocks _ W) as Wb. rewrite Forall_forall in Wb.
      destruct (Wb b Hb) as [[Gb Kb] _]. destruct (dim_range b Gb Kb) as [D _].
      destruct (0 <? dim_of b)%Z eqn:E0.
      * rewrite H2 by lia. cbn [bind]. now replace (dim_of b =? 0)%Z with false by lia.
      * now replace (dim_of b =? 0)%Z with true by lia.
    + intros nd [i b] Hin. cbn [option_map fst snd]. unfold set_part, rb_of. cbn [rb_entity rb_rows fst snd].
      destruct (snd nd =? dim_of b)%Z; [|reflexivity]. rewrite (proj1 (block_lookup m dt g q W We Hg pt be i b Hd Hin)). cbn [bind existsb andb].
      rewrite orb_false_r, map_length. reflexivity.
    + rewrite phys_read; [|apply (w_cells _ W)|apply (w_phys _ W q Hq)]. apply leading_fits, (w_phys _ W q Hq).
    + rewrite Eo in R. exists s. eexists. exists (node_order dt). split; [exact A|]. split; [exact R|]. split; [|exact Hby].
      constructor; cbn [m_points m_cells m_dim_tags m_phys m_geom m_bounds m_names m_sets m_periodic m_pdata m_cdata]; rewrite ?Edt.
      * reflexivity.
      * apply moved_cells; [exact W|]. rewrite <- (e_length _ _ We). apply Hby.
      * reflexivity.
      * now rewrite geom_read.
      * rewrite phys_read; [|apply (w_cells _ W)|apply (w_phys _ W q Hq)]. now rewrite Hq.
      * reflexivity.
      * exact N.
      * intros k. rewrite Hq. rewrite <- N.
        apply (dget_map_val (fun nd : Z * Z => map (fun ib => if Z.eqb (snd nd) (dim_of (snd ib)) && Z.eqb (fst nd) (lead (nth (fst ib) q []))
                                                     then seq 0 (blen (snd ib)) else []) (enumerate (m_cells m))) k names).
      * reflexivity.
      * reflexivity.
      * reflexivity.
  - (* one block *)
    destruct We as (b & Eb).
    assert (Hb : In b (m_cells m)) by (rewrite Eb; now left). pose proof (w_blocks _ W) as Wb. rewrite Forall_forall in Wb.
    destruct (Wb b Hb) as [[Gb Kb] _]. destruct (dim_range b Gb Kb) as [D1 D2].
    assert (Hgs : node_groups m = Ok [((dim_of b, 0%Z), seq 0 (length (m_points m)))]).
    { unfold node_groups. rewrite Edt, Eb, D2. cbn [bind]. now rewrite Z2Nat.id by lia. }
    assert (Np : 0 < length (m_points m)) by (pose proof (proj1 (w_points _ W)) as E; destruct (m_points m); [congruence|cbn; lia]).
    destruct (file_ok m _ (fun _ => (dim_of b, 0%Z)) None [] (fun _ => []) (fun _ => None) (fun _ _ => []) W Hgs) as (s & names & A & N & R).
    + constructor; [|constructor]. cbn [fst snd]. apply Forall_forall. reflexivity.
    + cbn [map concat snd]. now rewrite app_nil_r.
    + constructor; [|constructor]. cbn [fst snd]. split; cbn; lia.
    + cbn [length]. lia.
    + unfold write_entities. now rewrite Edt.
    + auto.
    + reflexivity.
    + reflexivity.
    + reflexivity.
    + rewrite Eb. exact I.
    + cbn [map concat snd] in R. rewrite app_nil_r in R. exists s. eexists. exists (seq 0 (length (m_points m))). split; [exact A|]. split; [exact R|].
      split; [|reflexivity].
      constructor; cbn [m_points m_cells m_dim_tags m_phys m_geom m_bounds m_names m_sets m_periodic m_pdata m_cdata]; rewrite ?Edt.
      * reflexivity.
      * now apply moved_cells.
      * f_equal. rewrite Eb. clear. generalize 0. induction (m_points m) as [|x l IH]; intros k; [reflexivity|]. cbn. f_equal. apply IH.
      * now rewrite geom_read.
      * rewrite Eb. reflexivity.
      * reflexivity.
      * exact N.
      * intros k. rewrite <- N.
        apply (dget_map_val (fun nd : Z * Z => map (fun _ => []) (enumerate (m_cells m))) k names).
      * reflexivity.
      * reflexivity.
      * reflexivity.
Qed.
End File.

(** The cells keep the coordinates of their vertices. *)
Lemma corners_kept {F} (zero : F) m m' order : msh41_mesh m -> kept41 zero m m' order ->
  map (corners (m_points m')) (m_cells m') = map (corners (in_space zero (m_points m))) (m_cells m).
Proof.
  intros W K. pose proof (r_cells _ _ _ _ K) as H. rewrite (r_points _ _ _ _ K). pose proof (w_index _ W) as Wi.
  set (pts := in_space zero (m_points m)). assert (Lp : length pts = length (m_points m)) by (unfold pts, in_space; apply map_length).
  rewrite <- Lp in Wi. clear - H Wi. revert Wi. induction H as [|b b' bs bs' [H1 H2] H IH]; intros Wi; [reflexivity|].
  inversion Wi as [|? ? Wb Wbs]; subst. cbn [map]. f_equal; [|now apply IH]. unfold corners. rewrite H1. f_equal. clear - H2 Wb.
  unfold indices_below in Wb. revert Wb. induction H2 as [|c c' cs cs' Hc H IH]; intros Wb; [reflexivity|].
  inversion Wb as [|? ? Wc Wcs]; subst. cbn [map]. f_equal; [|now apply IH]. clear - Hc Wc. revert Wc.
  induction Hc as [|i i' c c' [_ Hi] H IH]; intros Wc; [reflexivity|]. inversion Wc; subst. cbn [map]. f_equal; [|now apply IH].
  rewrite nth_error_map, Hi. cbn [option_map]. symmetry. apply nth_error_nth'. lia.
Qed.

Lemma order_perm {F} (m : mesh41 F) order : msh41_mesh m ->
  match m_dim_tags m with Some dt => by_entity dt order | None => order = seq 0 (length (m_points m)) end ->
  Permutation order (seq 0 (length (m_points m))).
Proof.
  intros W O. pose proof (w_entities _ W) as We. destruct (m_dim_tags m) as [dt|].
  - rewrite <- (e_length _ _ We). apply O.
  - now rewrite O.
Qed.
Lemma map_nth_seq_all {A} (l : list A) d : map (fun i => nth i l d) (seq 0 (length l)) = l.
Proof. induction l as [|x l IH]; [reflexivity|]. cbn [length seq map nth]. f_equal. rewrite <- seq_shift, map_map. exact IH. Qed.
Lemma points_kept {F} (zero : F) m m' order : msh41_mesh m -> kept41 zero m m' order ->
  match m_dim_tags m with Some dt => by_entity dt order | None => order = seq 0 (length (m_points m)) end ->
  Permutation (m_points m') (in_space zero (m_points m)).
Proof.
  intros W K O. apply order_perm in O; [|exact W]. rewrite (r_points _ _ _ _ K).
  rewrite (Permutation_map (fun i => nth i (in_space zero (m_points m)) []) O).
  assert (E : length (m_points m) = length (in_space zero (m_points m))) by (unfold in_space; now rewrite map_length).
  rewrite E, map_nth_seq_all. reflexivity.
Qed.
Lemma same_cells bs bs' n : Forall (indices_below n) bs ->
  Forall2 (fun b b' => btype b' = btype b /\
    Forall2 (Forall2 (fun i i' => (0 <= i')%Z /\ nth_error (seq 0 n) (Z.to_nat i') = Some (Z.to_nat i))) (bdata b) (bdata b')) bs bs' ->
  bs' = bs.
Proof.
  intros Wi H. revert Wi. induction H as [|b b' bs bs' [H1 H2] H IH]; intros Wi; [reflexivity|].
  inversion Wi as [|? ? Wb Wbs]; subst. f_equal; [|now apply IH]. destruct b as [t d], b' as [t' d']. cbn [btype bdata] in *. subst t'. f_equal.
  unfold indices_below in Wb. cbn [bdata] in Wb. clear - H2 Wb. revert Wb. induction H2 as [|c c' cs cs' Hc H IH]; intros Wb; [reflexivity|].
  inversion Wb as [|? ? Wc Wcs]; subst. f_equal; [|now apply IH]. clear - Hc Wc. revert Wc.
  induction Hc as [|i i' c c' [Hp Hi] H IH]; intros Wc; [reflexivity|]. inversion Wc; subst. f_equal; [|now apply IH].
  assert (L := nth_error_lt _ _ _ Hi). rewrite seq_length in L. rewrite (nth_error_nth' _ 0) in Hi by (now rewrite seq_length).
  rewrite seq_nth in Hi by exact L. injection Hi as Hi. lia.
Qed.
Lemma grouped_kept {F} (zero : F) m m' order dt : msh41_mesh m -> kept41 zero m m' order -> m_dim_tags m = Some dt ->
  listed_by_entity dt -> by_entity dt order ->
  m_points m' = in_space zero (m_points m) /\ m_cells m' = m_cells m /\ m_dim_tags m' = Some dt /\
  m_pdata m' = m_pdata m /\ m_cdata m' = m_cdata m /\
  option_map (map k_nodes) (m_periodic m') = option_map (map k_nodes) (m_periodic m).
Proof.
  intros W K E L [O1 O2]. pose proof (w_entities _ W) as We. rewrite E in We.
  assert (Eo : order = seq 0 (length dt)).
  { apply (SS_ext (before dt)); auto.
    - unfold before, pair_less. intros x y [H|[H1 H2]] [H'|[H1' H2']]; try rewrite H1 in *; try rewrite H1' in *; lia.
    - intros x. split; [apply (Permutation_in _ O1)|apply (Permutation_in _ (Permutation_sym O1))]. }
  assert (Lp : length dt = length (in_space zero (m_points m))) by (rewrite (e_length _ _ We); unfold in_space; now rewrite map_length).
  split; [rewrite (r_points _ _ _ _ K), Eo, Lp; apply map_nth_seq_all|].
  split. { apply (same_cells _ _ (length dt)); [rewrite (e_length _ _ We); apply (w_index _ W)|]. rewrite <- Eo. apply (r_cells _ _ _ _ K). }
  split; [rewrite (r_dim_tags _ _ _ _ K), E, Eo; now rewrite map_nth_seq_all|].
  split; [apply (r_pdata _ _ _ _ K)|]. split; [apply (r_cdata _ _ _ _ K)|].
  rewrite (r_periodic _ _ _ _ K). destruct (m_periodic m) as [ks|]; [|reflexivity]. cbn [option_map]. f_equal. rewrite map_map. reflexivity.
Qed.
Lemma links_same {F} (pts : list (list F)) ks ks' :
  option_map (map k_nodes) ks' = option_map (map k_nodes) ks ->
  option_map (map (link_points pts)) ks' = option_map (map (link_points pts)) ks.
Proof.
  intros H. destruct ks as [ks|], ks' as [ks'|]; try discriminate; [|reflexivity]. cbn in *. f_equal. injection H as H. unfold link_points.
  rewrite <- (map_map k_nodes (map (fun ab => (nth_error pts (Z.to_nat (fst ab)), nth_error pts (Z.to_nat (snd ab)))))), H. now rewrite map_map.
Qed.
