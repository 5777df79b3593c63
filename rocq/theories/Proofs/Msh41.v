(** MSH 4.1: the sections (C25). *)
From Coq Require Import ZArith NArith List String Ascii Bool Lia ZifyBool ZifyNat ZifyN Permutation Sorted.
From Verif.Lib Require Import Base Facts Facts2 Text TextFacts Lines LinesFacts Runs Perm Bytes BytesFacts File.
From Verif.Model Require Import Core Gmsh Port Msh41.
From Verif.Spec Require Import Core Blocks Gmsh Gmsh22 Msh41.
From Verif.Proofs Require Import Vtu Gmsh Gmsh22 Gmsh22File Port.
Import Model.Gmsh Model.Port Model.Msh41 Spec.Msh41.
Import ListNotations.

(** ** Entities in order *)
Lemma pair_eqb_eq a b : pair_eqb a b = true <-> a = b.
Proof.
  destruct a as [a1 a2], b as [b1 b2]. unfold pair_eqb. cbn [fst snd]. rewrite andb_true_iff, !Z.eqb_eq.
  split; [intros [-> ->]; reflexivity|intros H; injection H; auto].
Qed.
Lemma pair_eqb_refl a : pair_eqb a a = true.
Proof. now apply pair_eqb_eq. Qed.
Lemma pair_lt_less a b : pair_lt a b = true <-> pair_less a b.
Proof. unfold pair_lt, pair_less. rewrite orb_true_iff, andb_true_iff, !Z.ltb_lt, Z.eqb_eq. tauto. Qed.
Lemma pair_less_trans a b c : pair_less a b -> pair_less b c -> pair_less a c.
Proof. unfold pair_less. lia. Qed.
Lemma pair_total a b : pair_eqb a b = false -> pair_lt a b = false -> pair_less b a.
Proof. unfold pair_eqb, pair_lt, pair_less. lia. Qed.

Lemma pinsert_In x y l : In y (pinsert x l) <-> y = x \/ In y l.
Proof.
  induction l as [|z l IH]; cbn [pinsert In]; [intuition|].
  destruct (pair_eqb x z) eqn:E; [apply pair_eqb_eq in E; subst; cbn; intuition|].
  destruct (pair_lt x z); cbn [In]; rewrite ?IH; intuition.
Qed.
Lemma punique_In y l : In y (punique l) <-> In y l.
Proof. unfold punique. induction l as [|x l IH]; cbn; [tauto|]. rewrite pinsert_In, IH. intuition. Qed.
Lemma pinsert_sorted x l : StronglySorted pair_less l -> StronglySorted pair_less (pinsert x l).
Proof.
  induction 1 as [|z l Hs IH Hz]; cbn [pinsert]; [constructor; constructor|].
  destruct (pair_eqb x z) eqn:E; [constructor; auto|]. destruct (pair_lt x z) eqn:L.
  - apply pair_lt_less in L. constructor; [constructor; auto|]. constructor; [exact L|].
    eapply Forall_impl; [|exact Hz]. intros y Hy. eapply pair_less_trans; eauto.
  - constructor; [exact IH|]. apply Forall_forall. intros y Hy. apply pinsert_In in Hy. destruct Hy as [->|Hy].
    + now apply pair_total.
    + rewrite Forall_forall in Hz. auto.
Qed.
Lemma punique_sorted l : StronglySorted pair_less (punique l).
Proof. unfold punique. induction l as [|x l IH]; cbn; [constructor|]. now apply pinsert_sorted. Qed.

Lemma SS_app {A} (R : A -> A -> Prop) l1 l2 : StronglySorted R l1 -> StronglySorted R l2 ->
  (forall x y, In x l1 -> In y l2 -> R x y) -> StronglySorted R (l1 ++ l2).
Proof.
  intros H1 H2. induction H1 as [|x l Hs IH Hx]; intros H; [exact H2|]. cbn. constructor.
  - apply IH. intros; apply H; [now right|auto].
  - apply Forall_app. split; [exact Hx|]. apply Forall_forall. intros y Hy. apply H; [now left|auto].
Qed.
Lemma SS_weaken {A} (R S : A -> A -> Prop) l : (forall x y, In x l -> In y l -> R x y -> S x y) ->
  StronglySorted R l -> StronglySorted S l.
Proof.
  intros H Hs. induction Hs as [|x l Hs IH Hx]; constructor.
  - apply IH. intros; apply H; try (now right). auto.
  - apply Forall_forall. intros y Hy. rewrite Forall_forall in Hx. apply H; [now left|now right|auto].
Qed.
Lemma SS_NoDup {A} (R : A -> A -> Prop) l : (forall x, ~ R x x) -> StronglySorted R l -> NoDup l.
Proof.
  intros Hi Hs. induction Hs as [|x l Hs IH Hx]; constructor; auto. intros Hin. rewrite Forall_forall in Hx.
  exact (Hi x (Hx x Hin)).
Qed.

(** The order in which the points are written. *)
Definition node_order (dt : list (Z * Z)) : list nat := concat (map (fun e => where_ (pair_eqb e) dt) (punique dt)).

Lemma where_entity dt e k : In k (where_ (pair_eqb e) dt) -> nth_error dt k = Some e.
Proof. intros H. apply where_spec in H. destruct H as (x & Hx & E). apply pair_eqb_eq in E. now subst x. Qed.

Lemma order_sorted dt ents : StronglySorted pair_less ents ->
  StronglySorted (before dt) (concat (map (fun e => where_ (pair_eqb e) dt) ents)).
Proof.
  induction 1 as [|e ents Hs IH He]; [constructor|]. cbn [map concat]. apply SS_app; [|exact IH|].
  - eapply SS_weaken; [|apply where_sorted]. intros x y Hx Hy Hlt. right. apply where_entity in Hx, Hy.
    split; [|exact Hlt]. now rewrite (nth_error_nth _ _ _ Hx), (nth_error_nth _ _ _ Hy).
  - intros x y Hx Hy. left. apply in_concat in Hy. destruct Hy as (l & Hl & Hy). apply in_map_iff in Hl.
    destruct Hl as (e' & <- & He'). apply where_entity in Hx, Hy.
    rewrite (nth_error_nth _ _ _ Hx), (nth_error_nth _ _ _ Hy). rewrite Forall_forall in He. auto.
Qed.
Lemma node_order_by_entity dt : by_entity dt (node_order dt).
Proof.
  pose proof (order_sorted dt _ (punique_sorted dt)) as S. split; [|exact S]. apply NoDup_Permutation.
  - apply (SS_NoDup _ _) in S; [exact S|]. unfold before, pair_less. intros x. lia.
  - apply seq_NoDup.
  - intros k. rewrite in_seq. unfold node_order. rewrite in_concat. split.
    + intros (l & Hl & Hk). apply in_map_iff in Hl. destruct Hl as (e & <- & _). apply where_entity in Hk.
      assert (H := nth_error_lt _ _ _ Hk). lia.
    + intros Hk. destruct (nth_error dt k) as [e|] eqn:E; [|apply nth_error_None in E; lia].
      exists (where_ (pair_eqb e) dt). split.
      * apply in_map_iff. exists e. split; [reflexivity|]. apply punique_In. eapply nth_error_In; eauto.
      * apply where_spec. exists e. split; [exact E|apply pair_eqb_refl].
Qed.

Lemma Forall2_In_r {A B} (R : A -> B -> Prop) l d y : Forall2 R l d -> In y d -> exists x, In x l /\ R x y.
Proof. induction 1; cbn; [tauto|]. intros [->|H1]; [eauto|]. destruct IHForall2 as (x' & ? & ?); eauto. Qed.

Lemma Forall2_In_l {A B} (R : A -> B -> Prop) l d x : Forall2 R l d -> In x l -> exists y, In y d /\ R x y.
Proof. induction 1; cbn; [tauto|]. intros [->|H1]; [eauto|]. destruct IHForall2 as (y' & ? & ?); eauto. Qed.
Lemma mapM_map {A B C} (f : B -> result C) (g : A -> B) l : mapM f (map g l) = mapM (fun x => f (g x)) l.
Proof. induction l as [|x l IH]; [reflexivity|]. cbn. now rewrite IH. Qed.

(** The groups: entities with their points. *)
Definition groups_of (ent : nat -> Z * Z) (gs : list ((Z * Z) * list nat)) : Prop :=
  Forall (fun g => Forall (fun i => ent i = fst g) (snd g)) gs.

Section Sections.
Context {F : Type} (zero : F) (p : port F) (good : list (unt p) -> Prop)
  (holds : list (unt p) -> list (item F) -> list (unt p) -> Prop).
Hypothesis Hp : port_ok p good holds.

Lemma get_one_ok k z items s rest : in_range k z -> holds s (Int k z :: items) rest ->
  exists s', get_one p k s = Ok (z, s') /\ holds s' items rest.
Proof.
  intros Hz H. destruct (ok_ints _ _ _ Hp k [z] items s rest) as (s' & A & B); [constructor; auto|exact H|].
  exists s'. split; [|exact B]. unfold get_one. cbn [length] in A. now rewrite A.
Qed.
Lemma ints3_ok k a b c items s rest : in_range k a -> in_range k b -> in_range k c ->
  holds s (Int k a :: Int k b :: Int k c :: items) rest ->
  exists s', get_ints p k 3 s = Ok ([a; b; c], s') /\ holds s' items rest.
Proof.
  intros Ha Hb Hc H. apply (ok_ints _ _ _ Hp k [a; b; c] items s rest); [|exact H]. repeat (constructor; auto).
Qed.
Lemma ints4_ok k a b c d items s rest : in_range k a -> in_range k b -> in_range k c -> in_range k d ->
  holds s (Int k a :: Int k b :: Int k c :: Int k d :: items) rest ->
  exists s', get_ints p k 4 s = Ok ([a; b; c; d], s') /\ holds s' items rest.
Proof.
  intros Ha Hb Hc Hd H. apply (ok_ints _ _ _ Hp k [a; b; c; d] items s rest); [|exact H]. repeat (constructor; auto).
Qed.
Lemma ints_n k n zs items s rest : n = length zs -> Forall (in_range k) zs -> holds s (map (Int k) zs ++ items) rest ->
  exists s', get_ints p k n s = Ok (zs, s') /\ holds s' items rest.
Proof. intros ->. apply (ok_ints _ _ _ Hp). Qed.
Lemma floats_n n xs items s rest : n = length xs -> holds s (map Dbl xs ++ items) rest ->
  exists s', get_floats p n s = Ok (xs, s') /\ holds s' items rest.
Proof. intros ->. apply (ok_floats _ _ _ Hp). Qed.

(** ** Nodes *)
Lemma concat_singles {A B} (f : A -> B) l : concat (map (fun i => [f i]) l) = map f l.
Proof. induction l; cbn; congruence. Qed.
Lemma concat_map_map {A B} (f : A -> B) l : concat (map (map f) l) = map f (concat l).
Proof. symmetry. apply concat_map. Qed.
Lemma combine_map_both {A B C} (f : A -> B) (g : A -> C) l : combine (map f l) (map g l) = map (fun x => (f x, g x)) l.
Proof. induction l; cbn; congruence. Qed.

Lemma group_rows_ok (pts : list (list F)) g : Forall (fun i => i < length pts) (snd g) ->
  group_rows pts g = Ok ([Int CInt (fst (fst g)); Int CInt (snd (fst g)); Int CInt 0; Int CSize (Z.of_nat (length (snd g)))]
      :: map (fun i => [Int CSize (Z.of_nat (i + 1))]) (snd g) ++ map (fun i => map Dbl (nth i pts [])) (snd g)).
Proof.
  intros H. unfold group_rows. rewrite (mapM_ok_in _ (fun i => nth i pts [])).
  - cbn [bind]. now rewrite map_map.
  - intros i Hi. rewrite Forall_forall in H. specialize (H i Hi). now rewrite (nth_error_nth' _ []).
Qed.
Definition group_items (pts : list (list F)) (g : (Z * Z) * list nat) : list (item F) :=
  [Int CInt (fst (fst g)); Int CInt (snd (fst g)); Int CInt 0; Int CSize (Z.of_nat (length (snd g)))]
  ++ map (fun i => Int CSize (Z.of_nat (i + 1))) (snd g) ++ map Dbl (concat (map (fun i => nth i pts []) (snd g))).
Definition group_ok (pts : list (list F)) (g : (Z * Z) * list nat) : Prop :=
  in_range CInt (fst (fst g)) /\ in_range CInt (snd (fst g)) /\ Forall (fun i => i < length pts) (snd g) /\
  length (snd g) <= length pts.

Lemma read_group_ok pts g items s rest : (Z.of_nat (length pts) < 2 ^ 31 - 1)%Z -> Forall (fun x => length x = 3) pts ->
  group_ok pts g -> holds s (group_items pts g ++ items) rest ->
  exists s', read_group p s = Ok (map (fun i => (Z.of_nat i, nth i pts [], fst g)) (snd g), s') /\ holds s' items rest.
Proof.
  intros Hl H3 (R1 & R2 & Hi & Hn) H. unfold read_group, group_items in *. rewrite <- !app_assoc in H. cbn [app] in H.
  rewrite Forall_forall in Hi.
  destruct (ints3_ok CInt _ _ _ _ _ _ R1 R2 (ltac:(cbn; lia) : in_range CInt 0) H) as (s1 & A1 & H1).
  rewrite A1. cbn [bind fst snd]. change (negb (0 =? 0)%Z) with false. cbn iota.
  destruct (get_one_ok CSize _ _ _ _ (ltac:(cbn; lia) : in_range CSize (Z.of_nat (length (snd g)))) H1) as (s2 & A2 & H2).
  rewrite A2. cbn [bind fst snd]. rewrite Nat2Z.id.
  destruct (ints_n CSize (length (snd g)) (map (fun i => Z.of_nat (i + 1)) (snd g))
              (map Dbl (concat (map (fun i => nth i pts []) (snd g))) ++ items) s2 rest) as (s3 & A3 & H3').
  { now rewrite map_length. }
  { apply Forall_map, Forall_forall. intros i Hin. specialize (Hi i Hin). cbn. lia. }
  { rewrite map_map. exact H2. }
  rewrite A3. cbn [bind fst snd].
  assert (U : Forall (fun x => length x = 3) (map (fun i => nth i pts []) (snd g))).
  { apply Forall_map, Forall_forall. intros i Hin. rewrite Forall_forall in H3. apply H3. apply nth_In. auto. }
  assert (L : length (concat (map (fun i => nth i pts []) (snd g))) = length (snd g) * 3).
  { rewrite (concat_uniform_length 3) by exact U. rewrite map_length. lia. }
  destruct (floats_n (length (snd g) * 3) (concat (map (fun i => nth i pts []) (snd g))) items s3 rest) as (s4 & A4 & H4).
  { now rewrite L. }
  { exact H3'. }
  rewrite A4. cbn [bind fst snd]. rewrite map_length, L, !Nat.eqb_refl. cbn [andb].
  rewrite chunks_concat by (auto; lia). rewrite combine_map_both, map_map. cbn [fst snd].
  exists s4. split; [|exact H4]. f_equal. f_equal. apply map_ext. intros i. destruct (fst g). f_equal. f_equal. lia.
Qed.
Lemma read_groups_ok pts gs items s rest : (Z.of_nat (length pts) < 2 ^ 31 - 1)%Z -> Forall (fun x => length x = 3) pts ->
  Forall (group_ok pts) gs -> holds s (flat_map (group_items pts) gs ++ items) rest ->
  exists s', read_groups p (length gs) s = Ok (flat_map (fun g => map (fun i => (Z.of_nat i, nth i pts [], fst g)) (snd g)) gs, s')
    /\ holds s' items rest.
Proof.
  intros Hl H3 Hg. revert s. induction Hg as [|g gs Hg Hgs IH]; intros s H.
  - exists s. auto.
  - cbn [flat_map] in H. rewrite <- app_assoc in H. destruct (read_group_ok pts g _ _ _ Hl H3 Hg H) as (s1 & A1 & H1).
    destruct (IH s1 H1) as (s2 & A2 & H2). exists s2. split; [|exact H2]. cbn [length read_groups].
    rewrite A1. cbn [bind fst snd]. rewrite A2. reflexivity.
Qed.
Lemma groups_nodes (ent : nat -> Z * Z) (pts : list (list F)) gs : groups_of ent gs ->
  flat_map (fun g => map (fun i => (Z.of_nat i, nth i pts [], fst g)) (snd g)) gs =
  map (fun i => (Z.of_nat i, nth i pts [], ent i)) (concat (map snd gs)).
Proof.
  induction 1 as [|g gs Hg H IH]; [reflexivity|]. cbn [flat_map map concat]. rewrite map_app, IH. f_equal.
  apply map_ext_in. intros i Hi. rewrite Forall_forall in Hg. now rewrite (Hg i Hi).
Qed.

Lemma group_rows_items (pts : list (list F)) g rows : group_rows pts g = Ok rows -> Forall (fun i => i < length pts) (snd g) ->
  concat rows = group_items pts g.
Proof.
  intros E H. rewrite group_rows_ok in E by exact H. injection E as <-. cbn [concat]. unfold group_items. f_equal.
  rewrite concat_app, concat_singles. f_equal.
  rewrite <- (map_map (fun i => nth i pts []) (map Dbl)). apply concat_map_map.
Qed.

Definition nodes_read (ent : nat -> Z * Z) (pts : list (list F)) (order : list nat) : list (Z * list F * (Z * Z)) :=
  map (fun i => (Z.of_nat i, nth i pts [], ent i)) order.

(** The whole section. *)
Lemma nodes_section m gs ent : node_groups m = Ok gs -> groups_of ent gs ->
  Permutation (concat (map snd gs)) (seq 0 (length (m_points m))) ->
  (Z.of_nat (length (m_points m)) < 2 ^ 31 - 1)%Z -> Forall (fun x => length x = 2 \/ length x = 3) (m_points m) ->
  Forall (fun g => in_range CInt (fst (fst g)) /\ in_range CInt (snd (fst g))) gs -> length gs <= length (m_points m) ->
  exists u, write_nodes41 zero p m = Ok (opening p "Nodes" ++ u) /\
    forall rest, good rest ->
      read_nodes41 p (u ++ rest) = Ok (nodes_read ent (in_space zero (m_points m)) (concat (map snd gs)), rest) /\ good (u ++ rest).
Proof.
  intros Hg He HP Hn Hc Hr Hlen. set (pts := map (pad41 zero) (m_points m)).
  assert (E3 : Forall (fun x => length x = 3) pts).
  { apply Forall_map. eapply Forall_impl; [|exact Hc]. intros x [E|E].
    - destruct x as [|a [|b [|c x]]]; try discriminate. reflexivity.
    - destruct x as [|a [|b [|c [|d x]]]]; try discriminate. reflexivity. }
  assert (Lp : length pts = length (m_points m)) by (unfold pts; now rewrite map_length).
  assert (Hin : Forall (fun i => i < length pts) (concat (map snd gs))).
  { apply Forall_forall. intros i Hi. apply (Permutation_in _ HP) in Hi. apply in_seq in Hi. lia. }
  assert (Lo : length (concat (map snd gs)) = length (m_points m)) by (rewrite (Permutation_length HP); apply seq_length).
  assert (Hgi : Forall (fun g => Forall (fun i => i < length pts) (snd g) /\ length (snd g) <= length pts) gs).
  { apply Forall_forall. intros g Hgin. split.
    - apply Forall_forall. intros i Hi. rewrite Forall_forall in Hin. apply Hin. apply in_concat. exists (snd g). split; [now apply in_map|auto].
    - rewrite Lp, <- Lo. clear - Hgin. induction gs as [|g' gs IH]; [destruct Hgin|]. cbn. rewrite app_length.
      destruct Hgin as [->|Hgin]; [lia|]. specialize (IH Hgin). lia. }
  assert (Hgok : Forall (group_ok pts) gs).
  { rewrite Forall_forall in *. intros g Hgin. destruct (Hr g Hgin), (Hgi g Hgin). split; auto. }
  unfold write_nodes41. rewrite Hg. cbn [bind]. fold pts.
  destruct (mapM_exists (group_rows pts) gs) as (rows & Erows).
  { intros g Hgin. rewrite Forall_forall in Hgi. rewrite group_rows_ok by (now apply Hgi). eauto. }
  rewrite Erows. cbn [bind]. eexists. split; [reflexivity|]. intros rest Hrest. rewrite <- !app_assoc.
  assert (Gc : good (closing p "Nodes" ++ rest)) by (apply (ok_good_close _ _ _ Hp); [reflexivity|exact Hrest]).
  assert (Eitems : concat (concat rows) = flat_map (group_items pts) gs).
  { apply mapM_Forall2 in Erows. clear - Erows Hgi. induction Erows as [|g r gs rows E Erows IH]; [reflexivity|].
    inversion Hgi as [|? ? [Hg1 _] Hg2]; subst. cbn [concat flat_map]. rewrite concat_app, IH by auto. f_equal.
    now apply group_rows_items. }
  assert (Rok : rows_ok ([Int CSize (Z.of_nat (length gs)); Int CSize (Z.of_nat (length (m_points m))); Int CSize 1;
                          Int CSize (Z.of_nat (length (m_points m)))] :: concat rows)).
  { constructor.
    - split; [discriminate|]. repeat (constructor; [cbn; lia|]). constructor.
    - apply Forall_concat. apply mapM_Forall2 in Erows. rewrite Forall_forall. intros r Hrin.
      destruct (Forall2_In_r _ _ _ _ Erows Hrin) as (g & Hgin & E).
      rewrite Forall_forall in Hgok. destruct (Hgok g Hgin) as (R1 & R2 & Ri & Rn). rewrite group_rows_ok in E by auto. injection E as <-.
      constructor.
      + split; [discriminate|]. repeat (constructor; [first [assumption | cbn; lia]|]). constructor.
      + rewrite Forall_forall in Ri. apply Forall_app. split; apply Forall_map, Forall_forall; intros i Hi; specialize (Ri i Hi).
        * split; [discriminate|]. constructor; [cbn; lia|constructor].
        * split; [|apply Forall_map, Forall_forall; intros; exact I].
          rewrite Forall_forall in E3. assert (length (nth i pts []) = 3) by (apply E3, nth_In; auto).
          destruct (nth i pts []); [discriminate|discriminate]. }
  split; [|apply (ok_good_put _ _ _ Hp); auto].
  pose proof (ok_put _ _ _ Hp _ _ Gc Rok) as H. cbn [concat app] in H. rewrite Eitems in H.
  unfold read_nodes41.
  destruct (ints4_ok CSize _ _ _ _ _ _ _ (ltac:(cbn; lia) : in_range CSize (Z.of_nat (length gs)))
              (ltac:(cbn; lia) : in_range CSize (Z.of_nat (length (m_points m)))) (ltac:(cbn; lia) : in_range CSize 1)
              (ltac:(cbn; lia) : in_range CSize (Z.of_nat (length (m_points m)))) H) as (s1 & A1 & H1).
  rewrite A1. cbn [bind fst snd]. rewrite Nat2Z.id.
  destruct (read_groups_ok pts gs [] s1 (closing p "Nodes" ++ rest)) as (s2 & A2 & H2); auto.
  { lia. }
  { now rewrite app_nil_r. }
  rewrite A2. cbn [bind fst snd]. rewrite (groups_nodes ent) by auto. rewrite map_length, Lo, Z.eqb_refl.
  rewrite (ok_nil _ _ _ Hp _ _ H2), (ok_skip _ _ _ Hp) by auto. reflexivity.
Qed.

(** ** Elements *)
Definition tag_at (m : mesh41 F) (i : nat) : Z := match m_geom m with Some g => lead (nth i g []) | None => 0%Z end.
Definition up (c : cell) : cell := map (fun i => i + 1)%Z c.
Definition rb_of (m : mesh41 F) (ib : nat * block) : rblock :=
  RBlock (dim_of (snd ib), tag_at m (fst ib)) (btype (snd ib)) (map (fun c => up (gorder (btype (snd ib)) c)) (bdata (snd ib))).

Lemma gmsh_dims t code d : dget t meshio_to_gmsh_type = Some code -> cellblock_dim t = Ok d ->
  d <= 3 /\ (0 <= code < 2 ^ 31)%Z.
Proof.
  intros H Hd. apply dget_In in H.
  assert (C : forallb (fun kv => match cellblock_dim (fst kv) with
                                 | Ok d => Nat.leb d 3 && (0 <=? snd kv)%Z && (snd kv <? 2 ^ 31)%Z | Err _ => true end)
                meshio_to_gmsh_type = true) by now vm_compute.
  rewrite forallb_forall in C. specialize (C _ H). cbn [fst snd] in C.
  rewrite Hd in C. lia.
Qed.
Lemma dim_range b : gmsh_block b -> known_dim b -> (0 <= dim_of b <= 3)%Z /\ cellblock_dim (btype b) = Ok (Z.to_nat (dim_of b)).
Proof.
  intros (code & n & Hc & _) (d & Hd). destruct (gmsh_dims _ _ _ Hc Hd) as (Hl & _). unfold dim_of. rewrite Hd. rewrite Nat2Z.id. split; [lia|auto].
Qed.

Lemma gorder_In t c z : In z (gorder t c) -> In z c.
Proof.
  unfold gorder, meshio_to_gmsh_order, apply_order. destruct (dget t gmsh_ordering) as [q|]; [|auto].
  destruct (permute q c) as [r|] eqn:E; cbn; [|auto]. now apply (permute_In _ _ _ _ E).
Qed.

(** The first tag of a block. *)
Lemma first_tag_ok (bs : list block) (d : list (list Z)) i b : per_cell bs d -> In (i, b) (enumerate bs) -> bdata b <> [] ->
  first_tag (Some d) i = Ok (lead (nth i d [])) /\ length (nth i d []) = blen b /\ i < length d /\ In (nth i d []) d.
Proof.
  intros Hd Hin Hb. pose proof (enumerate_Forall2 _ _ _ [] Hd) as E.
  destruct (Forall2_In_l _ _ _ _ E Hin) as (a & Ha & H1 & H2). cbn [fst snd] in *.
  apply enumerate_In in Hin. destruct Hin as [Hi _]. rewrite (Forall2_length _ _ _ Hd) in Hi.
  rewrite H1. split; [|auto]. unfold first_tag. cbn [of_option bind].
  rewrite (nth_error_nth' _ [] Hi). cbn [of_option bind]. rewrite H1. destruct a as [|z a]; [|reflexivity].
  cbn in H2. unfold blen in H2. destruct (bdata b); [congruence|discriminate].
Qed.

Definition block_items (m : mesh41 F) (start : nat) (ib : nat * block) : list (item F) :=
  let b := snd ib in
  [Int CInt (dim_of b); Int CInt (tag_at m (fst ib)); Int CInt (match dget (btype b) meshio_to_gmsh_type with Some c => c | None => 0%Z end);
   Int CSize (Z.of_nat (blen b))]
  ++ map (Int CSize) (concat (map (fun kc => Z.of_nat (start + fst kc) :: up (gorder (btype b) (snd kc))) (enumerate (bdata b)))).
Fixpoint blocks_items (m : mesh41 F) (start : nat) (l : list (nat * block)) : list (item F) :=
  match l with
  | [] => []
  | ib :: l' => block_items m start ib ++ blocks_items m (start + blen (snd ib)) l'
  end.

Definition eblock_ok (m : mesh41 F) (start : nat) (ib : nat * block) : Prop :=
  In ib (enumerate (m_cells m)) /\ (Z.of_nat (start + blen (snd ib)) < 2 ^ 31)%Z.

Lemma tag_at_ok m i b : tags_ok m (m_geom m) -> In (i, b) (enumerate (m_cells m)) -> bdata b <> [] ->
  match m_geom m with Some _ => first_tag (m_geom m) i | None => Ok 0%Z end = Ok (tag_at m i) /\ in_range CInt (tag_at m i).
Proof.
  intros Hg Hin Hb. unfold tag_at. destruct (m_geom m) as [g|] eqn:E; [|split; [auto|cbn; lia]].
  destruct (Hg g eq_refl) as [H1 H2]. destruct (first_tag_ok _ _ _ _ H1 Hin Hb) as (A & L & _ & I). split; [exact A|].
  rewrite Forall_forall in H2. specialize (H2 _ I). destruct (nth i g []) as [|z a]; [cbn; lia|]. inversion H2; auto.
Qed.

Lemma block_rows_ok m start ib : msh41_mesh m -> eblock_ok m start ib ->
  exists rows, block_rows m start ib = Ok rows /\ rows_ok rows /\ concat rows = block_items m start ib.
Proof.
  intros W [Hin Hs]. destruct ib as [i b]. cbn [fst snd] in *.
  assert (Hb : In b (m_cells m)) by (now apply enumerate_In in Hin).
  pose proof (w_blocks _ W) as Wb. rewrite Forall_forall in Wb. destruct (Wb b Hb) as [[Gb Kb] Nb].
  pose proof (w_index _ W) as Wi. rewrite Forall_forall in Wi. specialize (Wi b Hb). unfold indices_below in Wi. rewrite Forall_forall in Wi.
  destruct (tag_at_ok m i b (w_geom _ W) Hin Nb) as [Et Rt]. destruct (dim_range b Gb Kb) as [Rd Ed].
  pose proof (proj2 (w_points _ W)) as Wp.
  destruct Gb as (code & n & Hc & Hn & Hr). unfold rows_have in Hr. rewrite Forall_forall in Hr.
  unfold block_rows. cbn [fst snd]. rewrite (mapM_ok_in _ (gorder (btype b))) by (intros c Hcin; apply (gorder_ok _ n); auto).
  cbn [bind]. rewrite Et. cbn [bind]. rewrite Hc. cbn [of_option bind]. rewrite Ed. cbn [bind].
  eexists. split; [reflexivity|]. rewrite enumerate_map, map_map. cbn [fst snd]. rewrite Z2Nat.id by lia.
  destruct Kb as (d & Kb). destruct (gmsh_dims _ _ _ Hc Kb) as (_ & Rc).
  assert (Lb : (Z.of_nat (blen b) < 2 ^ 31)%Z) by lia.
  split.
  - constructor.
    + split; [discriminate|]. constructor; [cbn; lia|]. constructor; [exact Rt|]. constructor; [cbn; lia|]. constructor; [cbn; lia|constructor].
    + apply Forall_map, Forall_forall. intros [k c] Hk. cbn [fst snd]. apply enumerate_In in Hk. destruct Hk as [Hk Hcin]. split; [discriminate|].
      constructor; [unfold blen in *; cbn; lia|]. apply Forall_map, Forall_forall. intros z Hz.
      apply (gorder_In (btype b) c) in Hz.
      specialize (Wi c Hcin). rewrite Forall_forall in Wi. specialize (Wi z Hz). cbn. lia.
  - unfold block_items. cbn [concat fst snd]. rewrite Hc. f_equal. rewrite <- concat_map_map, map_map. f_equal.
    apply map_ext. intros [k c]. cbn [fst snd map]. unfold up. now rewrite map_map.
Qed.

Lemma read_block_ok m start ib items s rest : msh41_mesh m -> eblock_ok m start ib ->
  holds s (block_items m start ib ++ items) rest ->
  exists s', read_block41 p s = Ok (rb_of m ib, s') /\ holds s' items rest.
Proof.
  intros W [Hin Hs] H. destruct ib as [i b]. unfold block_items in H. cbn [fst snd] in *.
  assert (Hb : In b (m_cells m)) by (now apply enumerate_In in Hin).
  pose proof (w_blocks _ W) as Wb. rewrite Forall_forall in Wb. destruct (Wb b Hb) as [[Gb Kb] Nb].
  pose proof (w_index _ W) as Wi. rewrite Forall_forall in Wi. specialize (Wi b Hb). unfold indices_below in Wi. rewrite Forall_forall in Wi.
  destruct (tag_at_ok m i b (w_geom _ W) Hin Nb) as [_ Rt]. destruct (dim_range b Gb Kb) as [Rd _].
  pose proof (proj2 (w_points _ W)) as Wp.
  destruct Gb as (code & n & Hc & Hn & Hr). unfold rows_have in Hr. rewrite Forall_forall in Hr. rewrite Hc in H.
  destruct Kb as (d & Kb). destruct (gmsh_dims _ _ _ Hc Kb) as (_ & Rc).
  assert (Lb : (Z.of_nat (blen b) < 2 ^ 31)%Z) by lia.
  rewrite <- app_assoc in H. cbn [app] in H. unfold read_block41.
  destruct (ints3_ok CInt _ _ _ _ _ _ (ltac:(cbn; lia) : in_range CInt (dim_of b)) Rt (ltac:(cbn; lia) : in_range CInt code) H) as (s1 & A1 & H1).
  rewrite A1. cbn [bind fst snd].
  destruct (get_one_ok CSize _ _ _ _ (ltac:(cbn; lia) : in_range CSize (Z.of_nat (blen b))) H1) as (s2 & A2 & H2).
  rewrite A2. cbn [bind fst snd]. rewrite (gmsh_codes _ _ Hc). cbn [of_option bind]. rewrite Hn. cbn [of_option bind]. rewrite Nat2Z.id.
  set (rows := map (fun kc => Z.of_nat (start + fst kc) :: up (gorder (btype b) (snd kc))) (enumerate (bdata b))) in *.
  assert (U : Forall (fun r => length r = 1 + n) rows).
  { apply Forall_map, Forall_forall. intros [k c] Hk. apply enumerate_In in Hk. destruct Hk as [_ Hk]. cbn [fst snd length].
    unfold up. rewrite map_length. now rewrite (proj1 (proj2 (gorder_ok _ n c Hn (Hr _ Hk)))). }
  assert (L : length (concat rows) = blen b * (1 + n)).
  { rewrite (concat_uniform_length (1 + n)) by exact U. unfold rows. rewrite map_length, enumerate_length. unfold blen. lia. }
  destruct (ints_n CSize (blen b * (1 + n)) (concat rows) items s2 rest) as (s3 & A3 & H3).
  { now rewrite L. }
  { apply Forall_concat. apply Forall_map, Forall_forall. intros [k c] Hk. apply enumerate_In in Hk. destruct Hk as [Hk Hcin]. cbn [fst snd].
    constructor; [unfold blen in *; cbn; lia|]. apply Forall_map, Forall_forall. intros z Hz. apply (gorder_In (btype b) c) in Hz.
    specialize (Wi c Hcin). rewrite Forall_forall in Wi. specialize (Wi z Hz). cbn. lia. }
  { exact H2. }
  rewrite A3. cbn [bind fst snd]. rewrite L, Nat.eqb_refl.
  replace (Nat.eqb (blen b) 0) with false by (unfold blen; destruct (bdata b); [congruence|reflexivity]).
  cbn [orb negb]. exists s3. split; [|exact H3]. f_equal. f_equal. unfold rb_of. cbn [fst snd].
  rewrite chunks_concat by (auto; lia). f_equal. unfold rows. rewrite map_map. cbn [tl].
  rewrite <- (map_map snd (fun c => up (gorder (btype b) c))), enumerate_snd. reflexivity.
Qed.

Fixpoint eblocks_ok (m : mesh41 F) (start : nat) (l : list (nat * block)) : Prop :=
  match l with
  | [] => True
  | ib :: l' => eblock_ok m start ib /\ eblocks_ok m (start + blen (snd ib)) l'
  end.
Lemma blocks_rows_ok m start l : msh41_mesh m -> eblocks_ok m start l ->
  exists rows, blocks_rows m start l = Ok rows /\ rows_ok rows /\ concat rows = blocks_items m start l.
Proof.
  intros W. revert start. induction l as [|ib l IH]; intros start H; [exists []; repeat split; constructor|]. destruct H as [H1 H2].
  destruct (block_rows_ok m start ib W H1) as (r & A & B & C). destruct (IH _ H2) as (rs & A' & B' & C').
  exists (r ++ rs). cbn [blocks_rows blocks_items]. rewrite A. cbn [bind]. rewrite A'. split; [reflexivity|]. split.
  - apply Forall_app. auto.
  - rewrite concat_app. congruence.
Qed.
Lemma read_blocks_ok m start l items s rest : msh41_mesh m -> eblocks_ok m start l ->
  holds s (blocks_items m start l ++ items) rest ->
  exists s', read_blocks41 p (length l) s = Ok (map (rb_of m) l, s') /\ holds s' items rest.
Proof.
  intros W. revert start s. induction l as [|ib l IH]; intros start s H Hh; [exists s; auto|]. destruct H as [H1 H2].
  cbn [blocks_items] in Hh. rewrite <- app_assoc in Hh.
  destruct (read_block_ok m start ib _ _ _ W H1 Hh) as (s1 & A1 & Hs1). destruct (IH _ _ H2 Hs1) as (s2 & A2 & Hs2).
  exists s2. split; [|exact Hs2]. cbn [length read_blocks41 map]. rewrite A1. cbn [bind fst snd]. rewrite A2. reflexivity.
Qed.
Lemma all_eblocks_ok m : msh41_mesh m -> eblocks_ok m 1 (enumerate (m_cells m)).
Proof.
  intros W. pose proof (w_total _ W) as T.
  assert (G : forall l start, incl l (enumerate (m_cells m)) ->
     (Z.of_nat (start + sum_nat (map (fun ib => blen (snd ib)) l)) < 2 ^ 31)%Z -> eblocks_ok m start l).
  { induction l as [|ib l IH]; intros start Hi Hs; [exact I|]. cbn [map sum_nat fold_right] in Hs. cbn [eblocks_ok].
    unfold sum_nat in *. cbn [map fold_right] in Hs.
    split; [split; [apply Hi; now left|lia]|]. apply IH; [intros x Hx; apply Hi; now right|lia]. }
  apply G; [apply incl_refl|]. rewrite <- (map_map snd blen), enumerate_snd. lia.
Qed.

(** Positions of the points. *)
Section Order.
Variable order : list nat.
Variable n : nat.
Hypothesis HP : Permutation order (seq 0 n).
Hypothesis Hn : 0 < n.
Let tags := map Z.of_nat order.
Definition pos (i : Z) : Z := Z.of_nat (position i tags).

Lemma pos_ok i : (0 <= i < Z.of_nat n)%Z -> nth_error tags (position i tags) = Some i.
Proof.
  intros H. apply position_nth. unfold tags. apply in_map_iff. exists (Z.to_nat i). split; [lia|].
  apply (Permutation_in _ (Permutation_sym HP)), in_seq. lia.
Qed.
Lemma pos_order i : (0 <= i < Z.of_nat n)%Z -> (0 <= pos i)%Z /\ nth_error order (Z.to_nat (pos i)) = Some (Z.to_nat i).
Proof.
  intros H. split; [unfold pos; lia|]. pose proof (pos_ok i H) as E. unfold tags in E. rewrite nth_error_map in E.
  unfold pos. rewrite Nat2Z.id. fold tags in E. destruct (nth_error order (position i tags)) as [k|]; [|discriminate].
  cbn in E. injection E as E. f_equal. lia.
Qed.
Lemma tags_table : exists table, lookup_table tags = Ok table /\
  forall k t, nth_error tags k = Some t -> znth table t = Some (Z.of_nat k).
Proof.
  apply lookup_table_ok.
  - unfold tags. intros E. apply map_eq_nil in E. pose proof (Permutation_length HP) as L. rewrite E, seq_length in L. cbn in L. lia.
  - unfold tags. apply FinFun.Injective_map_NoDup; [intros x y; apply Nat2Z.inj|].
    apply (Permutation_NoDup (Permutation_sym HP)), seq_NoDup.
  - unfold tags. apply Forall_map, Forall_forall. intros. lia.
Qed.
Lemma node_positions_ok table row : (forall k t, nth_error tags k = Some t -> znth table t = Some (Z.of_nat k)) ->
  Forall (fun i => 0 <= i < Z.of_nat n)%Z row -> node_positions table (up row) = Ok (map pos row).
Proof.
  intros Ht Hr. rewrite Forall_forall in Hr. unfold node_positions, up. rewrite map_map.
  replace (forallb _ _) with true.
  - rewrite map_id_in by (intros; lia). rewrite (lookup_cell_ok tags table row Ht (map (fun i => position i tags) row)).
    + unfold pos. now rewrite map_map.
    + clear Ht. induction row as [|i row IH]; cbn; constructor; [apply pos_ok, Hr; now left|]. apply IH. intros; apply Hr; now right.
  - symmetry. apply forallb_forall. intros z Hz. apply in_map_iff in Hz. destruct Hz as (i & <- & Hi). specialize (Hr i Hi). lia.
Qed.
End Order.

Lemma gmsh_order_map t (f : Z -> Z) (nodes ns : list Z) : gmsh_to_meshio_order t nodes = Ok ns ->
  gmsh_to_meshio_order t (map f nodes) = Ok (map f ns).
Proof.
  unfold gmsh_to_meshio_order, apply_order. destruct (dget t meshio_ordering) as [q|].
  - destruct (permute q nodes) as [r|] eqn:E; cbn; [|discriminate]. intros H. injection H as <-.
    now rewrite (permute_map _ _ _ _ E).
  - intros H. injection H as <-. reflexivity.
Qed.
Definition moved (order : list nat) (b : block) : block := Block (btype b) (map (map (pos order)) (bdata b)).

Lemma cells_ok m order table : msh41_mesh m -> Permutation order (seq 0 (length (m_points m))) ->
  (forall k t, nth_error (map Z.of_nat order) k = Some t -> znth table t = Some (Z.of_nat k)) ->
  mapM (fun b => do rows <- mapM (fun row => do ns <- node_positions table row; gmsh_to_meshio_order (rb_type b) ns) (rb_rows b);
                 do _ <- cellblock_dim (rb_type b);
                 Ok (Block (rb_type b) rows)) (map (rb_of m) (enumerate (m_cells m)))
  = Ok (map (moved order) (m_cells m)).
Proof.
  intros W HP Ht. rewrite mapM_map. rewrite (mapM_ok_in _ (fun ib => moved order (snd ib))).
  - now rewrite <- (map_map snd (moved order)), enumerate_snd.
  - intros [i b] Hin. unfold rb_of. cbn [rb_rows rb_type fst snd].
    assert (Hb : In b (m_cells m)) by (now apply enumerate_In in Hin).
    pose proof (w_blocks _ W) as Wb. rewrite Forall_forall in Wb. destruct (Wb b Hb) as [[(code & n & Hc & Hn & Hr) (dm & Kd)] _].
    pose proof (w_index _ W) as Wi. rewrite Forall_forall in Wi. specialize (Wi b Hb). unfold indices_below in Wi. rewrite Forall_forall in Wi.
    unfold rows_have in Hr. rewrite Forall_forall in Hr.
    rewrite mapM_map. rewrite (mapM_ok_in _ (map (pos order))); [cbn [bind]; rewrite Kd; reflexivity|].
    assert (Np : 0 < length (m_points m)) by (pose proof (proj1 (w_points _ W)) as E; destruct (m_points m); [congruence|cbn; lia]).
    intros c Hcin. rewrite (node_positions_ok order (length (m_points m)) HP Np table) by
      (auto; apply Forall_forall; intros z Hz; apply (gorder_In (btype b) c) in Hz; specialize (Wi c Hcin); rewrite Forall_forall in Wi; auto).
    cbn [bind]. apply gmsh_order_map. apply (gorder_ok _ n); auto.
Qed.

(** What the reader makes of a block: physical tags, bounding entities, members of a physical group. *)
Lemma elements_section m order ents (P : nat * block -> list Z) (B : nat * block -> option (list Z))
    (S : Z * Z -> nat * block -> list nat) :
  msh41_mesh m -> Permutation order (seq 0 (length (m_points m))) ->
  (forall ib, In ib (enumerate (m_cells m)) -> physical_of (option_map fst ents) (rb_of m ib) = Ok (P ib)) ->
  (forall ib, In ib (enumerate (m_cells m)) -> bounds_of (option_map snd ents) (rb_of m ib) = Ok (B ib)) ->
  (forall nd ib, In ib (enumerate (m_cells m)) -> set_part (option_map fst ents) nd (rb_of m ib) = Ok (S nd ib)) ->
  exists u, write_elements41 p m = Ok (opening p "Elements" ++ u) /\
    forall names rest, good rest ->
      read_elements41 p (map Z.of_nat order) ents names (u ++ rest) =
        Ok (Elements41 (map (moved order) (m_cells m)) (physical_arrays (map (rb_of m) (enumerate (m_cells m))) (map P (enumerate (m_cells m))))
              (Some (map (fun ib => repeat (tag_at m (fst ib)) (blen (snd ib))) (enumerate (m_cells m))))
              (map (fun kv => (fst kv, map (S (snd kv)) (enumerate (m_cells m)))) names)
              match ents with Some _ => Some (map B (enumerate (m_cells m))) | None => None end, rest)
      /\ good (u ++ rest).
Proof.
  intros W HP H1 H2 H3. pose proof (all_eblocks_ok m W) as He.
  destruct (blocks_rows_ok m 1 _ W He) as (rows & A & B1 & C). unfold write_elements41. rewrite A. cbn [bind].
  eexists. split; [reflexivity|]. intros names rest Hrest. rewrite <- !app_assoc.
  assert (Gc : good (closing p "Elements" ++ rest)) by (apply (ok_good_close _ _ _ Hp); [reflexivity|exact Hrest]).
  pose proof (w_total _ W) as T.
  assert (Lc : length (m_cells m) <= sum_nat (map blen (m_cells m))).
  { pose proof (w_blocks _ W) as Wb. clear - Wb. unfold sum_nat. induction Wb as [|b bs [_ Hb] H IH]; [reflexivity|]. cbn [length map fold_right].
    unfold blen at 1. destruct (bdata b); [congruence|]. cbn [length]. lia. }
  assert (Rok : rows_ok ([Int CSize (Z.of_nat (length (m_cells m))); Int CSize (Z.of_nat (sum_nat (map blen (m_cells m)))); Int CSize 1;
                          Int CSize (Z.of_nat (sum_nat (map blen (m_cells m))))] :: rows)).
  { constructor; [|exact B1]. split; [discriminate|]. repeat (constructor; [cbn; lia|]). constructor. }
  split; [|apply (ok_good_put _ _ _ Hp); auto].
  pose proof (ok_put _ _ _ Hp _ _ Gc Rok) as H. cbn [concat app] in H. rewrite C in H.
  unfold read_elements41.
  destruct (ints4_ok CSize _ _ _ _ _ _ _ (ltac:(cbn; lia) : in_range CSize (Z.of_nat (length (m_cells m))))
              (ltac:(cbn; lia) : in_range CSize (Z.of_nat (sum_nat (map blen (m_cells m))))) (ltac:(cbn; lia) : in_range CSize 1)
              (ltac:(cbn; lia) : in_range CSize (Z.of_nat (sum_nat (map blen (m_cells m))))) H) as (s1 & A1 & Hs1).
  rewrite A1. cbn [bind fst snd]. rewrite Nat2Z.id.
  destruct (read_blocks_ok m 1 (enumerate (m_cells m)) [] s1 (closing p "Elements" ++ rest) W He) as (s2 & A2 & Hs2).
  { now rewrite app_nil_r. }
  rewrite enumerate_length in A2. rewrite A2. cbn [bind fst snd].
  rewrite (mapM_ok_in _ (fun kv => (fst kv, map (S (snd kv)) (enumerate (m_cells m))))).
  2:{ intros kv _. rewrite mapM_map. rewrite (mapM_ok_in _ (S (snd kv))) by (intros; now apply H3). reflexivity. }
  cbn [bind]. rewrite mapM_map. rewrite (mapM_ok_in _ P) by (intros; now apply H1). cbn [bind].
  rewrite mapM_map. rewrite (mapM_ok_in _ B) by (intros; now apply H2). cbn [bind].
  assert (Np : 0 < length (m_points m)) by (pose proof (proj1 (w_points _ W)) as E; destruct (m_points m); [congruence|cbn; lia]).
  destruct (tags_table order (length (m_points m)) HP Np) as (table & T1 & T2). rewrite T1. cbn [bind].
  rewrite (cells_ok m order table W HP T2). cbn [bind].
  rewrite (ok_nil _ _ _ Hp _ _ Hs2), (ok_skip _ _ _ Hp) by auto.
  assert (Ne : exists ib l, enumerate (m_cells m) = ib :: l).
  { pose proof (w_cells _ W) as Hc. pose proof (enumerate_length (m_cells m)) as L. destruct (enumerate (m_cells m)) as [|ib l]; [|eauto].
    destruct (m_cells m); [congruence|discriminate]. }
  f_equal. f_equal. f_equal.
  - destruct Ne as (ib & l & ->). cbn [map]. f_equal. unfold rb_of. cbn [rb_entity rb_rows fst snd]. rewrite map_length.
    f_equal. rewrite map_map. apply map_ext. intros [i b]. cbn [rb_entity rb_rows fst snd]. now rewrite map_length.
  - destruct Ne as (ib & l & ->). destruct ents as [[pt be]|]; reflexivity.
Qed.

(** ** Periodic links *)
Definition link_read (k : link F) : link F :=
  Link (k_dim k) (k_slave k) (k_master k) (Some match k_affine k with Some a => a | None => [] end) (k_nodes k).
Definition affine_of (k : link F) : list F := match k_affine k with Some a => a | None => [] end.
Lemma link_rows_ok (k : link F) : link_ok k -> rows_ok (link_rows k).
Proof.
  intros (R1 & R2 & R3 & R4 & R5 & R6). unfold link_rows. constructor.
  - split; [discriminate|]. repeat (constructor; [assumption|]). constructor.
  - constructor.
    + destruct (k_affine k) as [[|x a]|]; (split; [discriminate|]); (constructor; [first [exact R6|cbn; lia]|]); try constructor; try exact I.
      apply Forall_map, Forall_forall. intros. exact I.
    + constructor; [split; [discriminate|]; constructor; [exact R5|constructor]|].
      apply Forall_map. eapply Forall_impl; [|exact R4]. intros [a b] (A1 & A2 & A3 & A4). split; [discriminate|].
      repeat (constructor; [assumption|]). constructor.
Qed.
Definition link_items (k : link F) : list (item F) :=
  [Int CInt (k_dim k); Int CInt (k_slave k); Int CInt (k_master k); Int CSize (Z.of_nat (length (affine_of k)))]
  ++ map Dbl (affine_of k) ++ [Int CSize (Z.of_nat (length (k_nodes k)))]
  ++ map (Int CSize) (concat (map (fun ab => [fst ab + 1; snd ab + 1]%Z) (k_nodes k))).
Lemma link_rows_items k : concat (link_rows k) = link_items k.
Proof.
  unfold link_rows, link_items, affine_of. cbn [concat]. rewrite <- concat_map_map, map_map. cbn [map].
  destruct (k_affine k) as [[|x a]|]; reflexivity.
Qed.
Lemma read_link_ok k items s rest : link_ok k -> holds s (link_items k ++ items) rest ->
  exists s', read_link41 p s = Ok (link_read k, s') /\ holds s' items rest.
Proof.
  intros (R1 & R2 & R3 & R4 & R5 & R6) H. unfold link_items in H. rewrite <- !app_assoc in H. cbn [app] in H. unfold read_link41.
  destruct (ints3_ok CInt _ _ _ _ _ _ R1 R2 R3 H) as (s1 & A1 & H1). rewrite A1. cbn [bind fst snd].
  assert (Ra : in_range CSize (Z.of_nat (length (affine_of k)))).
  { unfold affine_of. destruct (k_affine k); [exact R6|cbn; lia]. }
  destruct (get_one_ok CSize _ _ _ _ Ra H1) as (s2 & A2 & H2). rewrite A2. cbn [bind fst snd]. rewrite Nat2Z.id.
  destruct (floats_n _ (affine_of k) _ _ _ eq_refl H2) as (s3 & A3 & H3). rewrite A3. cbn [bind fst snd].
  destruct (get_one_ok CSize _ _ _ _ R5 H3) as (s4 & A4 & H4). rewrite A4. cbn [bind fst snd]. rewrite Nat2Z.id.
  set (zs := map (fun ab : Z * Z => [fst ab + 1; snd ab + 1]%Z) (k_nodes k)) in *.
  assert (U : Forall (fun r => length r = 2) zs) by (apply Forall_map, Forall_forall; reflexivity).
  assert (L : length (concat zs) = length (k_nodes k) * 2).
  { rewrite (concat_uniform_length 2) by exact U. unfold zs. rewrite map_length. lia. }
  destruct (ints_n CSize (length (k_nodes k) * 2) (concat zs) items s4 rest) as (s5 & A5 & H5); [now rewrite L| |exact H4|].
  { apply Forall_concat, Forall_map. eapply Forall_impl; [|exact R4]. intros [a b] (B1 & B2 & B3 & B4). repeat (constructor; [assumption|]). constructor. }
  rewrite A5. cbn [bind fst snd]. rewrite L, Nat.mod_mul by lia. cbn [Nat.eqb negb].
  exists s5. split; [|exact H5]. f_equal. f_equal. unfold link_read. f_equal.
  rewrite chunks_concat by (auto; lia). unfold zs. rewrite map_map. cbn [nth]. rewrite <- (map_id (k_nodes k)) at 2.
  apply map_ext. intros [a b]. cbn [fst snd]. f_equal; lia.
Qed.
Lemma read_links_ok ks items s rest : Forall link_ok ks -> holds s (flat_map link_items ks ++ items) rest ->
  exists s', read_links41 p (length ks) s = Ok (map link_read ks, s') /\ holds s' items rest.
Proof.
  intros Hk. revert s. induction Hk as [|k ks Hk Hks IH]; intros s H; [exists s; auto|].
  cbn [flat_map] in H. rewrite <- app_assoc in H. destruct (read_link_ok k _ _ _ Hk H) as (s1 & A1 & H1).
  destruct (IH s1 H1) as (s2 & A2 & H2). exists s2. split; [|exact H2]. cbn [length read_links41 map].
  rewrite A1. cbn [bind fst snd]. rewrite A2. reflexivity.
Qed.
Lemma periodic_section ks : Forall link_ok ks -> in_range CSize (Z.of_nat (length ks)) ->
  exists u, write_periodic41 p ks = opening p "Periodic" ++ u /\
    forall rest, good rest -> read_periodic41 p (u ++ rest) = Ok (map link_read ks, rest) /\ good (u ++ rest).
Proof.
  intros Hk Hn. unfold write_periodic41. eexists. split; [reflexivity|]. intros rest Hrest. rewrite <- app_assoc.
  assert (Gc : good (closing p "Periodic" ++ rest)) by (apply (ok_good_close _ _ _ Hp); [reflexivity|exact Hrest]).
  assert (Rok : rows_ok ([Int CSize (Z.of_nat (length ks))] :: flat_map link_rows ks)).
  { constructor; [split; [discriminate|]; constructor; [exact Hn|constructor]|].
    rewrite flat_map_concat_map. apply Forall_concat, Forall_map. eapply Forall_impl; [|exact Hk]. apply link_rows_ok. }
  split; [|apply (ok_good_put _ _ _ Hp); auto].
  pose proof (ok_put _ _ _ Hp _ _ Gc Rok) as H. cbn [concat app] in H.
  assert (E : concat (flat_map link_rows ks) = flat_map link_items ks).
  { clear. induction ks as [|k ks IH]; [reflexivity|]. cbn [flat_map]. now rewrite concat_app, IH, link_rows_items. }
  rewrite E in H. unfold read_periodic41. destruct (get_one_ok CSize _ _ _ _ Hn H) as (s1 & A1 & H1).
  rewrite A1. cbn [bind fst snd]. rewrite Nat2Z.id.
  destruct (read_links_ok ks [] s1 (closing p "Periodic" ++ rest) Hk) as (s2 & A2 & H2); [now rewrite app_nil_r|].
  rewrite A2. cbn [bind fst snd]. now rewrite (ok_nil _ _ _ Hp _ _ H2), (ok_skip _ _ _ Hp) by auto.
Qed.
End Sections.
