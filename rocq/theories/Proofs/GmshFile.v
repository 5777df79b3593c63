(** Reading the MSH 4.1 files of Gmsh (C82). *)
From Coq Require Import ZArith NArith List String Ascii Bool Lia ZifyBool ZifyNat ZifyN.
From Verif.Lib Require Import Base Facts Facts2 Text TextFacts Lines LinesFacts Runs Perm Bytes BytesFacts File.
From Verif.Model Require Import Core Gmsh Gmsh22 Port Msh41.
From Verif.Spec Require Import Core Blocks Gmsh Gmsh22 Msh41 GmshFile.
From Verif.Proofs Require Import CoreMisc Vtu Gmsh Gmsh22 Gmsh22File Port Msh41 Msh41File.
Import Model.Gmsh Model.Port Model.Msh41 Spec.Msh41.
Import ListNotations.
Local Open Scope list_scope.

Section GmshFile.
Context {F : Type} (p : port F) (good : list (unt p) -> Prop)
  (holds : list (unt p) -> list (item F) -> list (unt p) -> Prop).
Hypothesis Hp : port_ok p good holds.

(** ** Entities *)
Lemma gread_entity d e items s rest : gentity_ok e -> fst (ge_id e) = Z.of_nat d -> holds s (gentity_row e ++ items) rest ->
  exists s', read_entity p d s = Ok ((snd (ge_id e), ge_groups e, if Nat.eqb d 0 then [] else ge_bounds e), s') /\ holds s' items rest.
Proof.
  intros (_ & Ht & Lb & P1 & P2 & B1 & B2) Ed H. unfold gentity_row in H. cbn [app] in H.
  rewrite <- app_assoc in H. cbn [app] in H. rewrite <- app_assoc in H. unfold read_entity.
  destruct (get_one_ok p good holds Hp CInt _ _ _ _ Ht H) as (s1 & A1 & H1). rewrite A1. cbn [bind fst snd].
  destruct (floats_n p good holds Hp (if Nat.eqb d 0 then 3 else 6) (ge_box e) _ _ _ ltac:(rewrite Lb, Ed; destruct d; reflexivity) H1) as (s2 & A2 & H2).
  rewrite A2. cbn [bind fst snd].
  destruct (get_one_ok p good holds Hp CSize _ _ _ _ P2 H2) as (s3 & A3 & H3).
  rewrite A3. cbn [bind fst snd]. rewrite Nat2Z.id.
  destruct (ints_n p good holds Hp CInt _ (ge_groups e) _ _ _ eq_refl P1 H3) as (s4 & A4 & H4). rewrite A4. cbn [bind fst snd].
  rewrite Ed in H4. destruct d as [|d]; cbn [Nat.eqb].
  - exists s4. split; [reflexivity|exact H4].
  - replace (Z.of_nat (S d) =? 0)%Z with false in H4 by lia. cbn [app] in H4.
    destruct (get_one_ok p good holds Hp CSize _ _ _ _ B2 H4) as (s5 & A5 & H5). rewrite A5. cbn [bind fst snd]. rewrite Nat2Z.id.
    destruct (ints_n p good holds Hp CInt _ (ge_bounds e) _ _ _ eq_refl B1 H5) as (s6 & A6 & H6). rewrite A6. cbn [bind fst snd].
    exists s6. auto.
Qed.
Definition gdict (f : gentity F -> list Z) (es : list (gentity F)) : tagdict := rev (map (fun e => (ge_id e, f e)) es).
Lemma gread_entities_of d es items s rest pt be : Forall gentity_ok es -> Forall (fun e => fst (ge_id e) = Z.of_nat d) es ->
  holds s (flat_map gentity_row es ++ items) rest ->
  exists s', read_entities_of p d (length es) s pt be =
    Ok (gdict ge_groups es ++ pt, (if Nat.eqb d 0 then [] else gdict ge_bounds es) ++ be, s') /\ holds s' items rest.
Proof.
  intros Hok. revert s pt be. induction Hok as [|e es He Hok IH]; intros s pt be Hd H.
  - exists s. split; [|exact H]. cbn. destruct (Nat.eqb d 0); reflexivity.
  - inversion Hd as [|? ? He1 Hd1]; subst. cbn [flat_map] in H. rewrite <- app_assoc in H.
    destruct (gread_entity d e _ _ _ He He1 H) as (s1 & A1 & H1).
    cbn [length read_entities_of]. rewrite A1. cbn [bind fst snd].
    destruct (IH s1 ((ge_id e, ge_groups e) :: pt) (if Nat.eqb d 0 then be else (ge_id e, ge_bounds e) :: be) Hd1 H1) as (s2 & A2 & H2).
    exists s2. split; [|exact H2].
    rewrite <- He1. replace (fst (ge_id e), snd (ge_id e)) with (ge_id e) by now destruct (ge_id e).
    destruct d as [|d]; cbn [Nat.eqb] in *; rewrite A2; unfold gdict; cbn [map rev]; now rewrite <- !app_assoc.
Qed.
Lemma entities_of_dim_In (es : list (gentity F)) d e : In e (entities_of_dim es d) <-> In e es /\ fst (ge_id e) = d.
Proof. unfold entities_of_dim. rewrite filter_In, Z.eqb_eq. tauto. Qed.

Definition gdicts_ok (es : list (gentity F)) (pt be : tagdict) : Prop :=
  forall e, In e es -> tag_get (ge_id e) pt = Some (ge_groups e) /\ ((0 < fst (ge_id e))%Z -> tag_get (ge_id e) be = Some (ge_bounds e)).
Lemma tag_get_In d e l : NoDup (map fst d) -> In (e, l) d -> tag_get e d = Some l.
Proof.
  induction d as [|[e' l'] d IH]; intros Hd Hin; [destruct Hin|]. cbn [map fst] in Hd. inversion Hd as [|? ? Hn Hd']; subst.
  cbn [tag_get]. destruct (pair_eqb e e') eqn:E.
  - apply pair_eqb_eq in E. subst e'. destruct Hin as [Hin|Hin]; [congruence|]. exfalso. apply Hn. apply in_map_iff. now exists (e, l).
  - destruct Hin as [Hin|Hin]; [injection Hin as -> ->; rewrite pair_eqb_refl in E; discriminate|]. now apply IH.
Qed.
Lemma same_id_eq a b : same_id a b = true <-> a = b.
Proof. destruct a, b. unfold same_id. cbn. rewrite andb_true_iff, !Z.eqb_eq. split; [intros []; congruence|intros H; injection H; auto]. Qed.

(** Looking a pair up in the dictionary of the entities of all dimensions. *)
Lemma gdict_lookup (f : gentity F -> list Z) (es : list (gentity F)) (ds : list (list (gentity F))) e :
  (forall l, In l ds -> incl l es) -> In e es -> In e (concat ds) ->
  (forall e1 e2, In e1 es -> In e2 es -> ge_id e1 = ge_id e2 -> e1 = e2) ->
  tag_get (ge_id e) (concat (map (gdict f) ds)) = Some (f e).
Proof.
  intros Hi He Hc Hu.
  assert (G : forall l, incl l es -> forall rest, (tag_get (ge_id e) (map (fun x => (ge_id x, f x)) l ++ rest) = Some (f e)) \/
     (~ In e l /\ tag_get (ge_id e) (map (fun x => (ge_id x, f x)) l ++ rest) = tag_get (ge_id e) rest)).
  { induction l as [|x l IH]; intros Hl rest; [right; split; [intros []|reflexivity]|]. cbn [map app tag_get].
    destruct (pair_eqb (ge_id e) (ge_id x)) eqn:E.
    - left. apply pair_eqb_eq in E. now rewrite (Hu e x He (Hl x (or_introl eq_refl)) E).
    - destruct (IH (fun y Hy => Hl y (or_intror Hy)) rest) as [A|[A B]]; [now left|]. right. split; [|exact B].
      intros [->|Hin]; [rewrite pair_eqb_refl in E; discriminate|auto]. }
  induction ds as [|l ds IH]; [destruct Hc|]. cbn [map concat]. unfold gdict at 1. rewrite <- map_rev.
  destruct (G (rev l)) with (rest := concat (map (gdict f) ds)) as [A|[A B]].
  { intros y Hy. apply (Hi l (or_introl eq_refl)). now apply in_rev. }
  - exact A.
  - rewrite B. apply IH; [intros l' Hl'; apply Hi; now right|]. cbn [concat] in Hc. apply in_app_iff in Hc.
    destruct Hc as [Hc|Hc]; [|exact Hc]. exfalso. apply A. now apply in_rev in Hc.
Qed.
Lemma ids_unique (es : list (gentity F)) : NoDup (map ge_id es) -> forall e1 e2, In e1 es -> In e2 es -> ge_id e1 = ge_id e2 -> e1 = e2.
Proof.
  induction es as [|x es IH]; intros Hd e1 e2 H1 H2 E; [destruct H1|]. cbn [map] in Hd. inversion Hd as [|? ? Hn Hd']; subst.
  destruct H1 as [<-|H1], H2 as [<-|H2]; auto.
  - exfalso. apply Hn. rewrite E. now apply in_map.
  - exfalso. apply Hn. rewrite <- E. now apply in_map.
Qed.

Lemma gentities_section es : NoDup (map ge_id es) -> Forall gentity_ok es -> in_range CSize (Z.of_nat (length es)) ->
  exists pt be, gdicts_ok es pt be /\
    forall rest, good rest ->
      read_entities p (put p (gentities_rows es) ++ closing p "Entities" ++ rest) = Ok (pt, be, rest) /\
      good (put p (gentities_rows es) ++ closing p "Entities" ++ rest).
Proof.
  intros Hd Hok Hn. set (D := entities_of_dim es).
  exists (concat (map (gdict ge_groups) [D 3; D 2; D 1; D 0]%Z)), (concat (map (gdict ge_bounds) [D 3; D 2; D 1]%Z)).
  assert (I : forall d, incl (D d) es) by (intros d x Hx; apply entities_of_dim_In in Hx; tauto).
  assert (Dok : forall d, Forall gentity_ok (D d)) by (intros d; apply Forall_forall; intros x Hx; apply I in Hx; rewrite Forall_forall in Hok; auto).
  assert (Dd : forall d, Forall (fun e => fst (ge_id e) = Z.of_nat d) (D (Z.of_nat d))) by (intros d; apply Forall_forall; intros x Hx; now apply entities_of_dim_In in Hx).
  assert (Dl : forall d, in_range CSize (Z.of_nat (length (D d)))).
  { intros d. cbn in Hn |- *. assert (length (D d) <= length es); [|lia]. unfold D, entities_of_dim. clear. induction es as [|x l IH]; cbn; [lia|]. destruct (_ =? d)%Z; cbn; lia. }
  split.
  - intros e He. rewrite Forall_forall in Hok. destruct (Hok e He) as (De & _). pose proof (ids_unique es Hd) as Hu. split; [|intros Hpos]; (apply gdict_lookup with (es := es); [|exact He| |exact Hu]).
    + intros l [<-|[<-|[<-|[<-|[]]]]]; apply I.
    + assert (fst (ge_id e) = 0 \/ fst (ge_id e) = 1 \/ fst (ge_id e) = 2 \/ fst (ge_id e) = 3)%Z as C by lia.
      cbn [concat]. rewrite !in_app_iff. unfold D. rewrite !entities_of_dim_In. tauto.
    + intros l [<-|[<-|[<-|[]]]]; apply I.
    + assert (fst (ge_id e) = 1 \/ fst (ge_id e) = 2 \/ fst (ge_id e) = 3)%Z as C by lia.
      cbn [concat]. rewrite !in_app_iff. unfold D. rewrite !entities_of_dim_In. tauto.
  - intros rest Hrest.
    assert (Gc : good (closing p "Entities" ++ rest)) by (apply (ok_good_close _ _ _ Hp); [reflexivity|exact Hrest]).
    assert (Rok : rows_ok (gentities_rows es)).
    { constructor; [split; [discriminate|apply Forall_map, Forall_forall; intros d _; apply Dl]|].
      apply Forall_map, Forall_forall. intros e Hi. apply in_flat_map in Hi. destruct Hi as (d & _ & Hi). apply I in Hi.
      rewrite Forall_forall in Hok. destruct (Hok e Hi) as (_ & Ht & _ & P1 & P2 & B1 & B2). split; [discriminate|]. unfold gentity_row.
      constructor; [exact Ht|]. apply Forall_app. split; [apply Forall_map, Forall_forall; intros; exact Logic.I|]. constructor; [exact P2|].
      apply Forall_app. split; [now apply Forall_map|]. destruct (_ =? 0)%Z; [constructor|]. constructor; [exact B2|now apply Forall_map]. }
    split; [|apply (ok_good_put _ _ _ Hp); auto].
    pose proof (ok_put _ _ _ Hp _ _ Gc Rok) as H. unfold gentities_rows at 2 in H. cbn [concat] in H. rewrite <- flat_map_concat_map in H.
    cbn [map app flat_map] in H. rewrite app_nil_r, !flat_map_app in H. fold (D 0%Z) (D 1%Z) (D 2%Z) (D 3%Z) in H. unfold read_entities.
    destruct (ints4_ok p good holds Hp CSize _ _ _ _ _ _ _ (Dl 0%Z) (Dl 1%Z) (Dl 2%Z) (Dl 3%Z) H) as (s0 & A0 & H0). rewrite A0. cbn [bind fst snd].
    cbn [read_dims]. rewrite !Nat2Z.id.
    destruct (gread_entities_of 0 (D 0%Z) _ _ _ [] [] (Dok _) (Dd 0) H0) as (s1 & A1 & H1). rewrite A1. cbn [bind].
    match type of A1 with _ = Ok (?a, ?b, _) => destruct (gread_entities_of 1 (D 1%Z) _ _ _ a b (Dok _) (Dd 1) H1) as (s2 & A2 & H2) end.
    rewrite A2. cbn [bind].
    match type of A2 with _ = Ok (?a, ?b, _) => destruct (gread_entities_of 2 (D 2%Z) _ _ _ a b (Dok _) (Dd 2) H2) as (s3 & A3 & H3) end.
    rewrite A3. cbn [bind].
    match type of A3 with _ = Ok (?a, ?b, _) => destruct (gread_entities_of 3 (D 3%Z) [] s3 (closing p "Entities" ++ rest) a b (Dok _) (Dd 3)) as (s4 & A4 & H4) end.
    { rewrite app_nil_r. exact H3. }
    rewrite A4. cbn [bind]. rewrite (ok_nil _ _ _ Hp _ _ H4), (ok_skip _ _ _ Hp) by auto. reflexivity.
Qed.

(** ** Nodes *)
Definition gnode_reads (b : gnodes F) : list (Z * list F * (Z * Z)) := map (fun n => (fst n - 1, snd n, gn_id b)%Z) (gn_nodes b).
Lemma gnodes_rows_ok (b : gnodes F) : gnodes_ok b -> rows_ok (gnodes_rows b).
Proof.
  intros (R1 & R2 & R3 & R4). unfold gnodes_rows. constructor.
  - split; [discriminate|]. repeat (constructor; [first [assumption | cbn; lia]|]). constructor.
  - rewrite Forall_forall in R4. apply Forall_app. split; apply Forall_map, Forall_forall; intros n Hn; destruct (R4 n Hn) as [E L].
    + split; [discriminate|]. constructor; [cbn; lia|constructor].
    + split; [destruct (snd n); discriminate|]. apply Forall_map, Forall_forall. intros. exact I.
Qed.
Lemma gread_group b items s rest : gnodes_ok b -> holds s (concat (gnodes_rows b) ++ items) rest ->
  exists s', read_group p s = Ok (gnode_reads b, s') /\ holds s' items rest.
Proof.
  intros (R1 & R2 & R3 & R4) H. unfold read_group, gnodes_rows in *. cbn [concat app] in H. rewrite concat_app, <- app_assoc in H.
  rewrite Forall_forall in R4.
  destruct (ints3_ok p good holds Hp CInt _ _ _ _ _ _ R1 R2 (ltac:(cbn; lia) : in_range CInt 0) H) as (s1 & A1 & H1).
  rewrite A1. cbn [bind fst snd]. change (negb (0 =? 0)%Z) with false. cbn iota.
  destruct (get_one_ok p good holds Hp CSize _ _ _ _ R3 H1) as (s2 & A2 & H2).
  rewrite A2. cbn [bind fst snd]. rewrite Nat2Z.id.
  rewrite concat_singles in H2. rewrite <- (map_map fst (Int CSize)) in H2. rewrite <- (map_map snd (map Dbl)), concat_map_map in H2.
  destruct (ints_n p good holds Hp CSize (length (gn_nodes b)) (map fst (gn_nodes b)) (map Dbl (concat (map snd (gn_nodes b))) ++ items) s2 rest ltac:(now rewrite map_length)) as (s3 & A3 & H3).
  { apply Forall_map, Forall_forall. intros n Hn. destruct (R4 n Hn). cbn. lia. }
  { exact H2. }
  rewrite A3. cbn [bind fst snd].
  assert (U : Forall (fun x => length x = 3) (map snd (gn_nodes b))) by (apply Forall_map, Forall_forall; intros n Hn; apply R4; auto).
  assert (L : length (concat (map snd (gn_nodes b))) = length (gn_nodes b) * 3) by (rewrite (concat_uniform_length 3) by exact U; rewrite map_length; lia).
  destruct (floats_n p good holds Hp (length (gn_nodes b) * 3) (concat (map snd (gn_nodes b))) items s3 rest ltac:(now rewrite L) H3) as (s4 & A4 & H4).
  rewrite A4. cbn [bind fst snd]. rewrite map_length, L, !Nat.eqb_refl. cbn [andb].
  rewrite chunks_concat by (auto; lia). rewrite combine_map_both, map_map. cbn [fst snd].
  exists s4. split; [|exact H4]. f_equal. f_equal. unfold gnode_reads. apply map_ext. intros n. now destruct (gn_id b).
Qed.
Lemma gread_groups gs items s rest : Forall gnodes_ok gs -> holds s (concat (flat_map gnodes_rows gs) ++ items) rest ->
  exists s', read_groups p (length gs) s = Ok (flat_map gnode_reads gs, s') /\ holds s' items rest.
Proof.
  intros Hg. revert s. induction Hg as [|g gs Hg Hgs IH]; intros s H.
  - exists s. auto.
  - cbn [flat_map] in H. rewrite concat_app, <- app_assoc in H. destruct (gread_group g _ _ _ Hg H) as (s1 & A1 & H1).
    destruct (IH s1 H1) as (s2 & A2 & H2). exists s2. split; [|exact H2]. cbn [length read_groups flat_map].
    rewrite A1. cbn [bind fst snd]. rewrite A2. reflexivity.
Qed.
Lemma gnode_reads_length gs : length (flat_map gnode_reads gs) = length (gnode_tags gs).
Proof. induction gs as [|b gs IH]; [reflexivity|]. cbn. rewrite !app_length, IH. unfold gnode_reads. now rewrite !map_length. Qed.

Lemma gnodes_section g : gfile_ok g -> forall rest, good rest ->
  read_nodes41 p (put p (all_nodes_rows g) ++ closing p "Nodes" ++ rest) = Ok (flat_map gnode_reads (gf_nodes g), rest) /\
  good (put p (all_nodes_rows g) ++ closing p "Nodes" ++ rest).
Proof.
  intros W rest Hrest. destruct (fo_nodes _ W) as [Ng Nl]. destruct (fo_tags _ W) as (_ & _ & Tl). destruct (fo_ranges _ W) as (R1 & R2 & _).
  assert (Gc : good (closing p "Nodes" ++ rest)) by (apply (ok_good_close _ _ _ Hp); [reflexivity|exact Hrest]).
  assert (Rok : rows_ok (all_nodes_rows g)).
  { constructor; [split; [discriminate|repeat (constructor; [assumption|]); constructor]|].
    rewrite flat_map_concat_map. apply Forall_concat, Forall_map. eapply Forall_impl; [|exact Ng]. apply gnodes_rows_ok. }
  split; [|apply (ok_good_put _ _ _ Hp); auto].
  pose proof (ok_put _ _ _ Hp _ _ Gc Rok) as H. unfold all_nodes_rows at 2 in H. cbn [concat app] in H. unfold read_nodes41.
  destruct (ints4_ok p good holds Hp CSize _ _ _ _ _ _ _ Nl Tl R1 R2 H) as (s1 & A1 & H1). rewrite A1. cbn [bind fst snd]. rewrite Nat2Z.id.
  destruct (gread_groups (gf_nodes g) [] s1 (closing p "Nodes" ++ rest) Ng) as (s2 & A2 & H2); [now rewrite app_nil_r|].
  rewrite A2. cbn [bind fst snd]. rewrite gnode_reads_length, Z.eqb_refl.
  rewrite (ok_nil _ _ _ Hp _ _ H2), (ok_skip _ _ _ Hp) by auto. reflexivity.
Qed.

(** ** Elements *)
Definition gblock_read (b : gelements) : rblock := RBlock (gl_id b) (gl_type b) (map snd (gl_rows b)).
Lemma type_code_ok b (g : gfile F) : gelements_ok g b -> dget (gl_type b) meshio_to_gmsh_type = Some (type_code (gl_type b)) /\ in_range CInt (type_code (gl_type b)).
Proof.
  intros (_ & _ & (c & Hc) & (d & Hd) & _). unfold type_code. rewrite Hc. split; [reflexivity|].
  destruct (gmsh_dims _ _ _ Hc Hd). cbn. lia.
Qed.
Lemma gelements_rows_ok (g : gfile F) b : gfile_ok g -> gelements_ok g b -> rows_ok (F := F) (gelements_rows b).
Proof.
  intros W Hb. destruct (type_code_ok _ _ Hb) as [_ Rc]. destruct Hb as (R1 & R2 & _ & _ & (_ & R3) & R4 & _). unfold gelements_rows. constructor.
  - split; [discriminate|]. repeat (constructor; [first [assumption | cbn; lia]|]). constructor.
  - apply Forall_map, Forall_forall. rewrite Forall_forall in R4. intros r Hr. destruct (R4 r Hr) as (E1 & _ & E2).
    split; [discriminate|]. constructor; [exact E1|]. apply Forall_map, Forall_forall. intros n Hn. rewrite Forall_forall in E2. specialize (E2 n Hn).
    unfold gnode_tags in E2. apply in_flat_map in E2. destruct E2 as (b' & Hb' & E2). apply in_map_iff in E2. destruct E2 as (n' & <- & E2).
    destruct (fo_nodes _ W) as [Ng _]. rewrite Forall_forall in Ng. destruct (Ng b' Hb') as (_ & _ & _ & Q). rewrite Forall_forall in Q.
    destruct (Q n' E2). cbn. lia.
Qed.
Lemma gread_block (g : gfile F) b items s rest : gfile_ok g -> gelements_ok g b -> holds s (concat (gelements_rows b) ++ items) rest ->
  exists s', read_block41 p s = Ok (gblock_read b, s') /\ holds s' items rest.
Proof.
  intros W Hb H. pose proof (gelements_rows_ok g b W Hb) as Rok. destruct (type_code_ok _ _ Hb) as [Hc Rc].
  destruct Hb as (R1 & R2 & _ & _ & (Ne & R3) & R4 & _). unfold gelements_rows in H, Rok. cbn [concat app] in H.
  unfold read_block41.
  destruct (ints3_ok p good holds Hp CInt _ _ _ _ _ _ (ltac:(cbn; lia) : in_range CInt (fst (gl_id b))) R2 Rc H) as (s1 & A1 & H1).
  rewrite A1. cbn [bind fst snd].
  destruct (get_one_ok p good holds Hp CSize _ _ _ _ R3 H1) as (s2 & A2 & H2).
  rewrite A2. cbn [bind fst snd]. rewrite (gmsh_codes _ _ Hc). cbn [of_option bind].
  assert (Hw : exists n, dget (gl_type b) num_nodes_per_cell = Some n /\ Forall (fun r => length (snd r) = n) (gl_rows b)).
  { rewrite Forall_forall in R4. destruct (gl_rows b) as [|r rows]; [congruence|]. destruct (R4 r (or_introl eq_refl)) as (_ & E & _).
    exists (length (snd r)). split; [exact E|]. apply Forall_forall. intros r' Hr'. destruct (R4 r' Hr') as (_ & E' & _). congruence. }
  destruct Hw as (n & Hn & Hr). rewrite Hn. cbn [of_option bind]. rewrite Nat2Z.id.
  set (rows := map (fun r => fst r :: snd r) (gl_rows b)).
  assert (U : Forall (fun r => length r = 1 + n) rows).
  { apply Forall_map. eapply Forall_impl; [|exact Hr]. cbn. intros r ->. reflexivity. }
  assert (L : length (concat rows) = length (gl_rows b) * (1 + n)).
  { rewrite (concat_uniform_length (1 + n)) by exact U. unfold rows. rewrite map_length. lia. }
  rewrite <- (map_map (fun r : Z * list Z => fst r :: snd r) (map (Int CSize))), concat_map_map in H2. fold rows in H2.
  destruct (ints_n p good holds Hp CSize (length (gl_rows b) * (1 + n)) (concat rows) items s2 rest ltac:(now rewrite L)) as (s3 & A3 & H3).
  { inversion Rok as [|? ? _ Rr]; subst. apply Forall_concat, Forall_map. apply Forall_map in Rr. eapply Forall_impl; [|exact Rr]. cbn [fst snd].
    intros r [_ Q]. inversion Q as [|? ? Q1 Q2]; subst. constructor; [exact Q1|]. rewrite Forall_map in Q2. exact Q2. }
  { exact H2. }
  rewrite A3. cbn [bind fst snd]. rewrite L, Nat.eqb_refl.
  replace (Nat.eqb (length (gl_rows b)) 0) with false by (destruct (gl_rows b); [congruence|reflexivity]).
  cbn [orb negb]. exists s3. split; [|exact H3]. f_equal. f_equal. unfold gblock_read.
  rewrite chunks_concat by (auto; lia). f_equal; [now destruct (gl_id b)|]. unfold rows. rewrite map_map. reflexivity.
Qed.
Lemma gread_blocks (g : gfile F) bs items s rest : gfile_ok g -> Forall (gelements_ok g) bs -> holds s (concat (flat_map gelements_rows bs) ++ items) rest ->
  exists s', read_blocks41 p (length bs) s = Ok (map gblock_read bs, s') /\ holds s' items rest.
Proof.
  intros W Hg. revert s. induction Hg as [|b bs Hg Hgs IH]; intros s H.
  - exists s. auto.
  - cbn [flat_map] in H. rewrite concat_app, <- app_assoc in H. destruct (gread_block g b _ _ _ W Hg H) as (s1 & A1 & H1).
    destruct (IH s1 H1) as (s2 & A2 & H2). exists s2. split; [|exact H2]. cbn [length read_blocks41 map].
    rewrite A1. cbn [bind fst snd]. rewrite A2. reflexivity.
Qed.

Lemma tags_positive (g : gfile F) : gfile_ok g -> Forall (fun t => 1 <= t)%Z (gnode_tags (gf_nodes g)).
Proof.
  intros W. apply Forall_forall. intros t Ht. unfold gnode_tags in Ht. apply in_flat_map in Ht. destruct Ht as (b' & Hb' & E2).
  apply in_map_iff in E2. destruct E2 as (n' & <- & E2).
  destruct (fo_nodes _ W) as [Ng _]. rewrite Forall_forall in Ng. destruct (Ng b' Hb') as (_ & _ & _ & Q). rewrite Forall_forall in Q.
  destruct (Q n' E2). lia.
Qed.
Lemma position_down tags t : position (t - 1) (map (fun x => x - 1)%Z tags) = position t tags.
Proof.
  induction tags as [|x tags IH]; [reflexivity|]. cbn [map position]. rewrite IH.
  destruct (Z.eqb_spec (x - 1) (t - 1)), (Z.eqb_spec x t); auto; lia.
Qed.
Lemma gcell_ok tags table t id nodes : Forall (fun t => 1 <= t)%Z tags ->
  (forall k z, nth_error (map (fun x => x - 1)%Z tags) k = Some z -> znth table z = Some (Z.of_nat k)) ->
  dget t num_nodes_per_cell = Some (length nodes) -> Forall (fun n => In n tags) nodes ->
  (do ns <- node_positions table nodes; gmsh_to_meshio_order t ns) = Ok (snd (element_cell tags (Element t id [] nodes))).
Proof.
  intros Hpos Ht Hn Hin. rewrite Forall_forall in Hpos, Hin. unfold node_positions.
  replace (forallb (fun z => (0 <? z)%Z) nodes) with true.
  2:{ symmetry. apply forallb_forall. intros z Hz. specialize (Hpos z (Hin z Hz)). lia. }
  rewrite (lookup_cell_ok _ table _ Ht (map (fun n => position n tags) nodes)).
  - cbn [bind]. rewrite map_map. destruct (gmsh_order_total t nodes _ Hn eq_refl) as (ns & E1 & _ & E2).
    rewrite (gmsh_order_map t (fun n => Z.of_nat (position n tags)) nodes ns E2). cbn [element_cell snd e_type e_nodes]. now rewrite E1.
  - clear - Hin. induction nodes as [|n nodes IH]; cbn [map]; constructor.
    + rewrite nth_error_map, (position_nth n tags (Hin n (or_introl eq_refl))). reflexivity.
    + apply IH. intros; apply Hin. now right.
Qed.

Lemma find_entity_ok (es : list (gentity F)) id : In id (map ge_id es) -> exists e, find_entity es id = Some e /\ In e es /\ ge_id e = id.
Proof.
  intros H. unfold find_entity. destruct (find _ es) as [e|] eqn:E.
  - apply find_some in E. destruct E as [E1 E2]. apply same_id_eq in E2. eauto.
  - exfalso. apply in_map_iff in H. destruct H as (e & He & Hin). pose proof (find_none _ _ E e Hin) as Q. cbn in Q.
    rewrite He in Q. assert (same_id id id = true) by now apply same_id_eq. congruence.
Qed.

Definition gents_ok (g : gfile F) (ents : option (tagdict * tagdict)) : Prop :=
  match gf_entities g, ents with
  | Some es, Some (pt, be) => gdicts_ok es pt be
  | None, None => True
  | _, _ => False
  end.
Lemma gphysical_of g ents b : gfile_ok g -> gents_ok g ents -> gelements_ok g b ->
  physical_of (option_map fst ents) (gblock_read b) = Ok (block_groups g b).
Proof.
  intros W He Hb. destruct Hb as (R1 & _ & _ & _ & _ & _ & Hin). unfold gents_ok, block_groups in *. unfold physical_of.
  destruct (gf_entities g) as [es|]; destruct ents as [[pt be]|]; try contradiction; [|reflexivity]. cbn [option_map fst].
  destruct (find_entity_ok es _ Hin) as (e & E1 & E2 & E3). rewrite E1. destruct (He e E2) as [G _]. unfold tag_lookup, gblock_read. cbn [rb_entity].
  replace ((0 <=? fst (gl_id b))%Z && (fst (gl_id b) <=? 3)%Z) with true by lia. rewrite <- E3, G. reflexivity.
Qed.
Lemma gbounds_of g ents b : gfile_ok g -> gents_ok g ents -> gelements_ok g b ->
  bounds_of (option_map snd ents) (gblock_read b) = Ok match gf_entities g with Some es => block_bounds es b | None => None end.
Proof.
  intros W He Hb. destruct Hb as (R1 & _ & _ & _ & _ & _ & Hin). unfold gents_ok in *. unfold bounds_of.
  destruct (gf_entities g) as [es|]; destruct ents as [[pt be]|]; try contradiction; [|reflexivity]. cbn [option_map snd].
  unfold block_bounds, gblock_read. cbn [rb_entity]. destruct (0 <? fst (gl_id b))%Z eqn:Ep; [|reflexivity].
  destruct (find_entity_ok es _ Hin) as (e & E1 & E2 & E3). rewrite E1. destruct (He e E2) as [_ G]. unfold tag_lookup.
  replace ((0 <=? fst (gl_id b))%Z && (fst (gl_id b) <=? 3)%Z) with true by lia. rewrite <- E3 in *. rewrite G by lia. reflexivity.
Qed.
Lemma gset_part g ents nd b : gfile_ok g -> gents_ok g ents -> gelements_ok g b ->
  set_part (option_map fst ents) nd (gblock_read b) = Ok (if in_group g nd b then seq 0 (length (gl_rows b)) else []).
Proof.
  intros W He Hb. pose proof (gphysical_of g ents b W He Hb) as Q. unfold in_group. unfold physical_of, set_part in *.
  destruct (option_map fst ents) as [pt|].
  - unfold gblock_read in *. cbn [rb_entity rb_rows] in *. destruct (snd nd =? fst (gl_id b))%Z; [|reflexivity]. rewrite Q. cbn [bind andb].
    rewrite map_length. reflexivity.
  - injection Q as Q. rewrite <- Q. cbn [existsb]. now rewrite andb_false_r.
Qed.

Lemma gphysical_none (g : gfile F) bs : forallb (fun b => match block_groups g b with [] => true | _ => false end) bs = true ->
  physical_arrays (map gblock_read bs) (map (block_groups g) bs) = None.
Proof.
  intros H. unfold physical_arrays. replace (flat_map _ _) with (@nil (list Z)); [reflexivity|]. symmetry.
  induction bs as [|b bs IH]; [reflexivity|]. cbn [forallb map combine flat_map] in *. apply andb_true_iff in H. destruct H as [H1 H2].
  cbn [snd]. destruct (block_groups g b); [|discriminate]. cbn [app]. now apply IH.
Qed.
Definition garrays (g : gfile F) (bs : list gelements) : list (list Z) :=
  flat_map (fun b => match block_groups g b with [] => [] | t :: _ => [repeat t (length (gl_rows b))] end) bs.
Lemma garrays_ok (g : gfile F) bs :
  flat_map (fun bt : rblock * list Z => match snd bt with [] => [] | t :: _ => [repeat t (length (rb_rows (fst bt)))] end)
    (combine (map gblock_read bs) (map (block_groups g) bs)) = garrays g bs.
Proof.
  induction bs as [|b bs IH]; [reflexivity|]. cbn [map combine flat_map]. unfold garrays in *. cbn [flat_map]. rewrite IH. f_equal.
  cbn [fst snd]. destruct (block_groups g b); [reflexivity|]. unfold gblock_read. cbn [rb_rows]. now rewrite map_length.
Qed.
Lemma garrays_all (g : gfile F) bs : forallb (fun b => match block_groups g b with [] => false | _ => true end) bs = true ->
  garrays g bs = map (fun b => repeat (hd 0%Z (block_groups g b)) (length (gl_rows b))) bs.
Proof.
  intros H. induction bs as [|b bs IH]; [reflexivity|]. cbn [forallb map] in *. apply andb_true_iff in H. destruct H as [H1 H2].
  unfold garrays in *. cbn [flat_map]. rewrite (IH H2). destruct (block_groups g b); [discriminate|reflexivity].
Qed.
Lemma garrays_length (g : gfile F) bs : length (garrays g bs) <= length bs /\
  (length (garrays g bs) = length bs -> forallb (fun b => match block_groups g b with [] => false | _ => true end) bs = true).
Proof.
  induction bs as [|b bs [IH1 IH2]]; [split; [reflexivity|reflexivity]|]. unfold garrays in *. cbn [flat_map forallb].
  rewrite app_length. destruct (block_groups g b); cbn [length]; [split; [lia|intros; lia]|].
  split; [lia|]. intros E. cbn [andb]. apply IH2. lia.
Qed.
Lemma garrays_nil (g : gfile F) bs : garrays g bs = [] -> forallb (fun b => match block_groups g b with [] => true | _ => false end) bs = true.
Proof.
  induction bs as [|b bs IH]; [reflexivity|]. unfold garrays in *. cbn [flat_map forallb].
  destruct (block_groups g b); [exact IH|discriminate].
Qed.

Definition gelements_read (g : gfile F) (names : dict (Z * Z)) : elements41 :=
  Elements41 (file_cells g) (match garrays g (gf_elements g) with [] => None | l => Some l end)
    (m_geom (file_mesh g names)) (m_sets (file_mesh g names)) (m_bounds (file_mesh g names)).
Lemma gelements_section g ents names : gfile_ok g -> gents_ok g ents -> forall rest, good rest ->
  read_elements41 p (map (fun t => t - 1)%Z (gnode_tags (gf_nodes g))) ents names (put p (all_elements_rows g) ++ closing p "Elements" ++ rest) =
    Ok (gelements_read g names, rest) /\
  good (put p (all_elements_rows g) ++ closing p "Elements" ++ rest).
Proof.
  intros W He rest Hrest. destruct (fo_elements _ W) as (Ne & Hok & Nl & Nt). destruct (fo_ranges _ W) as (_ & _ & R1 & R2).
  assert (Gc : good (closing p "Elements" ++ rest)) by (apply (ok_good_close _ _ _ Hp); [reflexivity|exact Hrest]).
  assert (Rok : rows_ok (F := F) (all_elements_rows g)).
  { constructor; [split; [discriminate|repeat (constructor; [assumption|]); constructor]|].
    rewrite flat_map_concat_map. apply Forall_concat, Forall_map. eapply Forall_impl; [|exact Hok]. intros b. now apply gelements_rows_ok. }
  split; [|apply (ok_good_put _ _ _ Hp); auto].
  pose proof (ok_put _ _ _ Hp _ _ Gc Rok) as H. unfold all_elements_rows at 2 in H. cbn [concat app] in H. unfold read_elements41.
  destruct (ints4_ok p good holds Hp CSize _ _ _ _ _ _ _ Nl Nt R1 R2 H) as (s1 & A1 & H1). rewrite A1. cbn [bind fst snd]. rewrite Nat2Z.id.
  destruct (gread_blocks g (gf_elements g) [] s1 (closing p "Elements" ++ rest) W Hok) as (s2 & A2 & H2); [now rewrite app_nil_r|].
  rewrite A2. cbn [bind fst snd]. rewrite Forall_forall in Hok.
  rewrite (mapM_ok_in _ (fun kv => (fst kv, map (fun b => if in_group g (snd kv) b then seq 0 (length (gl_rows b)) else []) (gf_elements g)))).
  2:{ intros kv _. rewrite mapM_map. rewrite (mapM_ok_in _ (fun b => if in_group g (snd kv) b then seq 0 (length (gl_rows b)) else [])); [reflexivity|].
      intros b Hb. apply gset_part; auto. }
  cbn [bind]. rewrite mapM_map. rewrite (mapM_ok_in _ (block_groups g)) by (intros b Hb; apply gphysical_of; auto). cbn [bind].
  rewrite mapM_map. rewrite (mapM_ok_in _ (fun b => match gf_entities g with Some es => block_bounds es b | None => None end)) by (intros b Hb; apply gbounds_of; auto).
  cbn [bind]. destruct (fo_tags _ W) as (T1 & T2 & _). pose proof (tags_positive g W) as T3.
  destruct (lookup_table_ok (map (fun t => t - 1)%Z (gnode_tags (gf_nodes g)))) as (table & Et & Ht).
  { intros E. apply map_eq_nil in E. congruence. }
  { apply FinFun.Injective_map_NoDup; [intros x y; lia|exact T2]. }
  { apply Forall_map. eapply Forall_impl; [|exact T3]. cbn. intros; lia. }
  rewrite Et. cbn [bind]. rewrite mapM_map.
  rewrite (mapM_ok_in _ (fun b => Block (gl_type b)
     (map (fun r => snd (element_cell (gnode_tags (gf_nodes g)) (Element (gl_type b) (fst r) [] (snd r)))) (gl_rows b)))).
  2:{ intros b Hb. unfold gblock_read. cbn [rb_type rb_rows]. destruct (Hok b Hb) as (_ & _ & _ & (d & Hd) & _ & R4 & _).
      rewrite mapM_map. rewrite (mapM_ok_in _ (fun r => snd (element_cell (gnode_tags (gf_nodes g)) (Element (gl_type b) (fst r) [] (snd r))))).
      - cbn [bind]. rewrite Hd. reflexivity.
      - intros r Hr. rewrite Forall_forall in R4. destruct (R4 r Hr) as (_ & E1 & E2). now apply gcell_ok. }
  cbn [bind]. rewrite (ok_nil _ _ _ Hp _ _ H2), (ok_skip _ _ _ Hp) by auto. unfold gelements_read, physical_arrays. rewrite garrays_ok.
  f_equal. f_equal. cbn [file_mesh m_geom m_sets m_bounds]. f_equal.
  - assert (Er : forall l, map (fun b => repeat (snd (rb_entity b)) (length (rb_rows b))) (map gblock_read l) = map (fun b => repeat (snd (gl_id b)) (length (gl_rows b))) l).
    2:{ destruct (gf_elements g) as [|b bs]; [congruence|]. now rewrite <- Er. }
    intros l. rewrite map_map. apply map_ext. intros b'. unfold gblock_read. cbn [rb_entity rb_rows]. now rewrite map_length.
  - unfold gents_ok in He. destruct (gf_entities g) as [es|]; destruct ents as [[pt be]|]; try contradiction; [|reflexivity].
    cbn [option_map snd]. destruct (gf_elements g); [congruence|reflexivity].
Qed.

(** ** Links *)
Definition down (k : link F) : link F :=
  Link (k_dim k) (k_slave k) (k_master k) (k_affine k) (map (fun ab => (fst ab - 1, snd ab - 1))%Z (k_nodes k)).
Lemma down_ok k : glink_ok k -> link_ok (down k).
Proof.
  intros (R1 & R2 & R3 & R4 & R5 & R6). unfold link_ok, down. cbn [k_dim k_slave k_master k_nodes k_affine]. rewrite map_length.
  repeat (split; [assumption|]). split; [|split; [assumption|]].
  - apply Forall_map. eapply Forall_impl; [|exact R4]. intros [a b]. cbn. lia.
  - unfold glink_affine in R6. destruct (k_affine k); [exact R6|exact I].
Qed.
Lemma glink_rows_down (k : link F) : link_rows (down k) = glink_rows k.
Proof.
  unfold link_rows, glink_rows, down, glink_affine. cbn [k_dim k_slave k_master k_nodes k_affine]. rewrite map_map, map_length. cbn [app]. f_equal.
  destruct (k_affine k) as [[|x a]|]; cbn [length map]; f_equal; f_equal; apply map_ext; intros [u v]; cbn [fst snd];
    (replace (u - 1 + 1)%Z with u by lia; replace (v - 1 + 1)%Z with v by lia; reflexivity).
Qed.

(** ** The file *)
(** The sections [s] read from the state [st] end with the result [r], which may be an exception. *)
Definition ends (s : list (unt p)) (st : state41) (r : result state41) : Prop :=
  good s /\ exists n, n <= length s /\ forall f, n < f -> read_sections41 p f s st = r.
Lemma leads_ends s st st' : leads p good s st st' -> ends s st (Ok st').
Proof.
  intros [G [n H]]. split; [exact G|]. exists n. split; [exact (runs_length p good holds Hp _ _ _ _ H)|].
  intros f Hf. exact (runs_read p good holds Hp _ _ _ _ _ H Hf).
Qed.
Lemma ends_cons env u rest st st' r : word env = true -> good (u ++ rest) ->
  read_section41 p env (u ++ rest) st = Ok (st', rest) -> ends rest st' r -> ends (opening p env ++ u ++ rest) st r.
Proof.
  intros Hw Hg Hs [_ [n [Hn Hr]]]. destruct (ok_open _ _ _ Hp env (u ++ rest) Hw Hg) as (O & _ & G & Hne).
  split; [exact G|]. exists (S n). split.
  - rewrite !app_length. destruct (opening p env); [congruence|]. cbn [length]. lia.
  - intros f Hf. destruct f as [|f]; [lia|]. cbn [read_sections41]. rewrite O. cbn [bind]. rewrite Hs. cbn [bind fst snd]. apply Hr. lia.
Qed.
Lemma ends_fails env u rest st e : word env = true -> good (u ++ rest) ->
  read_section41 p env (u ++ rest) st = Err e -> ends (opening p env ++ u ++ rest) st (Err e).
Proof.
  intros Hw Hg Hs. destruct (ok_open _ _ _ Hp env (u ++ rest) Hw Hg) as (O & _ & G & Hne).
  split; [exact G|]. exists 0. split; [lia|].
  intros f Hf. destruct f as [|f]; [lia|]. cbn [read_sections41]. rewrite O. cbn [bind]. now rewrite Hs.
Qed.
Definition links_of (g : gfile F) := option_map (map (fun k => link_read (down k))) (gf_links g).
(** A file with anything that has no effect between its sections *)
Definition mixed_body (w : nat -> list (unt p)) (g : gfile F) (D : list (unt p)) : list (unt p) :=
  w 0 ++ text p (write_physical_names (gf_names g)) ++
  w 1 ++ match gf_entities g with Some es => section p "Entities" (gentities_rows es) | None => [] end ++
  w 2 ++ section p "Nodes" (all_nodes_rows g) ++ w 3 ++ section p "Elements" (all_elements_rows g) ++
  w 4 ++ match gf_links g with Some ks => section p "Periodic" ([Int CSize (Z.of_nat (length ks))] :: flat_map glink_rows ks) | None => [] end ++ D.
Lemma mixed_file_ends w g D Res : (forall i rest st r, ends rest st r -> ends (w i ++ rest) st r) ->
  gfile_ok g -> (forall a b c d e, ends D (State41 a b c d e [] []) (Res a b c d e)) ->
  exists ents names, (forall k, dget k names = dget k (gf_names g)) /\
    ends (mixed_body w g D)
      start41 (Res (Some (flat_map gnode_reads (gf_nodes g))) (Some (gelements_read g names)) ents names (links_of g)).
Proof.
  intros Hw W HD.
  set (links := links_of g).
  set (nd := flat_map gnode_reads (gf_nodes g)).
  set (Q := match gf_links g with Some ks => section p "Periodic" ([Int CSize (Z.of_nat (length ks))] :: flat_map glink_rows ks) | None => [] end).
  set (E := section p "Elements" (all_elements_rows g)). set (N := section p "Nodes" (all_nodes_rows g)).
  assert (Ent : exists ents, gents_ok g ents /\
    forall nm rest st', ends rest (State41 None None ents nm None [] []) st' ->
      ends (match gf_entities g with Some es => section p "Entities" (gentities_rows es) | None => [] end ++ rest)
                   (State41 None None None nm None [] []) st').
  { unfold gents_ok. destruct (gf_entities g) as [es|] eqn:Ee; [|exists None; split; [exact I|auto]].
    destruct (fo_entities _ W es Ee) as (E1 & E2 & E3). destruct (gentities_section es E1 E2 E3) as (pt & be & Dk & R).
    exists (Some (pt, be)). split; [exact Dk|]. intros nm rest st' L. destruct (R rest (proj1 L)) as [B1 B2]. unfold section.
    rewrite <- !app_assoc in *. rewrite (app_assoc (put p (gentities_rows es))) in *.
    eapply (ends_cons); [reflexivity|exact B2| |exact L].
    match goal with |- read_section41 p "Entities" ?s (State41 ?a ?b ?c ?d ?e ?f ?h) = _ =>
      change (read_section41 p "Entities" s (State41 a b c d e f h)) with
        (do r <- read_entities p s; let '(pt, be, s') := r in Ok (State41 (F:=F) a b (Some (pt, be)) d e f h, s')) end.
    rewrite B1. reflexivity. }
  destruct Ent as (ents & He & Hent).
  set (fin := fun nm => Res (Some nd) (Some (gelements_read g nm)) ents nm links).
  assert (T : forall nm, ends (match gf_entities g with Some es => section p "Entities" (gentities_rows es) | None => [] end ++ w 2 ++ N ++ w 3 ++ E ++ w 4 ++ Q ++ D)
                           (State41 None None None nm None [] []) (fin nm)).
  { intros nm. apply Hent. apply Hw.
    assert (L2 : ends (Q ++ D) (State41 (Some nd) (Some (gelements_read g nm)) ents nm None [] []) (fin nm)).
    { unfold Q, fin, links, links_of. destruct (gf_links g) as [ks|] eqn:Ek; [|apply HD].
      destruct (fo_links _ W ks Ek) as [K1 K2].
      destruct (periodic_section p good holds Hp (map down ks)) as (uk & Ak & Bk).
      { apply Forall_map. eapply Forall_impl; [|exact K1]. apply down_ok. }
      { rewrite map_length. exact K2. }
      assert (Es : write_periodic41 p (map down ks) = section p "Periodic" ([Int CSize (Z.of_nat (length ks))] :: flat_map glink_rows ks)).
      { unfold write_periodic41, section. rewrite map_length. do 3 f_equal. f_equal. clear.
        induction ks as [|k ks IH]; [reflexivity|]. cbn [map flat_map]. now rewrite IH, glink_rows_down. }
      rewrite <- Es, Ak. destruct (Bk D (proj1 (HD None None None [] None))) as [B1 B2]. rewrite <- app_assoc.
      eapply (ends_cons); [reflexivity|exact B2| |apply HD].
      match goal with |- read_section41 p "Periodic" ?s (State41 ?a ?b ?c ?d ?e ?f ?g) = _ =>
        change (read_section41 p "Periodic" s (State41 a b c d e f g)) with (do r <- read_periodic41 p s; Ok (State41 a b c d (Some (fst r)) f g, snd r)) end.
      rewrite B1. cbn [bind fst snd option_map]. now rewrite map_map. }
    apply (Hw 4) in L2.
    assert (L3 : ends (E ++ w 4 ++ Q ++ D) (State41 (Some nd) None ents nm None [] []) (fin nm)).
    { destruct (gelements_section g ents nm W He _ (proj1 L2)) as [B1 B2]. unfold E, section.
      rewrite <- !app_assoc in *. rewrite (app_assoc (put p (all_elements_rows g))) in *.
      eapply (ends_cons); [reflexivity|exact B2| |exact L2].
      match goal with |- read_section41 p "Elements" ?s (State41 (Some ?a) ?b ?c ?d ?e ?f ?g) = _ =>
        change (read_section41 p "Elements" s (State41 (Some a) b c d e f g)) with
          (do r <- read_elements41 p (map (fun x => fst (fst x)) a) c d s; Ok (State41 (Some a) (Some (fst r)) c d e f g, snd r)) end.
      assert (En : map (fun x => fst (fst x)) nd = map (fun t => t - 1)%Z (gnode_tags (gf_nodes g))).
      { unfold nd, gnode_tags. clear. induction (gf_nodes g) as [|b l IH]; [reflexivity|]. cbn [flat_map]. rewrite !map_app, IH. f_equal.
        unfold gnode_reads. now rewrite !map_map. }
      rewrite En, B1. reflexivity. }
    apply (Hw 3) in L3. destruct (gnodes_section g W _ (proj1 L3)) as [B1 B2]. unfold N, section.
    rewrite <- !app_assoc in *. rewrite (app_assoc (put p (all_nodes_rows g))) in *.
    eapply (ends_cons); [reflexivity|exact B2| |exact L3].
    match goal with |- read_section41 p "Nodes" ?s (State41 ?a ?b ?c ?d ?e ?f ?g) = _ =>
        change (read_section41 p "Nodes" s (State41 a b c d e f g)) with (do r <- read_nodes41 p s; Ok (State41 (Some (fst r)) b c d e f g, snd r)) end.
    rewrite B1. reflexivity. }
  assert (Nm : exists names, (forall k, dget k names = dget k (gf_names g)) /\
     ends (w 0 ++ text p (write_physical_names (gf_names g)) ++
       w 1 ++ match gf_entities g with Some es => section p "Entities" (gentities_rows es) | None => [] end ++ w 2 ++ N ++ w 3 ++ E ++ w 4 ++ Q ++ D) start41 (fin names)).
  { assert (T' := fun nm => Hw 1 _ _ _ (T nm)). destruct (fo_names _ W) as [N1 N2]. destruct (gf_names g) as [|x names] eqn:Em.
    - exists []. split; [reflexivity|]. rewrite (ok_no_names _ _ _ Hp). apply Hw. apply T'.
    - destruct (ok_names _ _ _ Hp (x :: names) _ N1 N2 ltac:(discriminate) (proj1 (T' []))) as (u & fd' & A & B1 & C & Dn & _).
      exists fd'. split; [exact Dn|]. apply Hw. rewrite A, <- app_assoc. eapply (ends_cons); [reflexivity|exact C| |exact (T' fd')].
      match goal with |- read_section41 p "PhysicalNames" ?s start41 = _ =>
        change (read_section41 p "PhysicalNames" s start41) with (do r <- get_names p [] s; Ok (State41 (F:=F) None None None (fst r) None [] [], snd r)) end.
      rewrite B1. reflexivity. }
  destruct Nm as (names & Hnames & L). exists ents, names. split; [exact Hnames|exact L].
Qed.
Lemma gmsh_file_ends g D Res : gfile_ok g -> (forall a b c d e, ends D (State41 a b c d e [] []) (Res a b c d e)) ->
  exists ents names, (forall k, dget k names = dget k (gf_names g)) /\
    ends (mixed_body (fun _ => []) g D)
      start41 (Res (Some (flat_map gnode_reads (gf_nodes g))) (Some (gelements_read g names)) ents names (links_of g)).
Proof. apply mixed_file_ends. intros. assumption. Qed.
(** A tail that ends with an exception. *)
Theorem gmsh_file_stops g D e : gfile_ok g -> (forall a b c d l, ends D (State41 a b c d l [] []) (Err e)) -> read41 p (gmsh_file p g ++ D) = Err e.
Proof.
  intros W HD. destruct (gmsh_file_ends g D (fun _ _ _ _ _ => Err e) W HD) as (ents & names & _ & G & n & Hn & L).
  unfold mixed_body in G, Hn, L. cbn [app] in G, Hn, L. unfold read41, gmsh_file. rewrite <- !app_assoc. rewrite (ok_header _ _ _ Hp "4.1" _ eq_refl G). cbn [bind fst snd].
  change (smem "4.1" ["4"; "4.1"]%string) with true. cbn iota. unfold read_buffer41. rewrite L by lia. reflexivity.
Qed.
Theorem mixed_file_tail w g D pd cr : (forall i rest st r, ends rest st r -> ends (w i ++ rest) st r) -> gfile_ok g ->
  (forall a b c d e, ends D (State41 a b c d e [] []) (Ok (State41 a b c d e pd cr))) ->
  Forall (fun kv => length (snd kv) = length (gnode_tags (gf_nodes g))) pd ->
  Forall (fun kv => length (snd kv) = length (flat_map gl_rows (gf_elements g))) cr ->
  exists names, (forall k, dget k names = dget k (gf_names g)) /\
    read41 p (put_header p "4.1" ++ mixed_body w g D) = if groups_agree g then Ok (with_data (file_mesh g names) pd (by_block g cr)) else Err ValueError.
Proof.
  intros Hw W HD Hpd Hcr.
  destruct (mixed_file_ends w g D (fun a b c d e => Ok (State41 a b c d e pd cr)) Hw W) as (ents & names & Hnames & G & n & Hn & L).
  { exact HD. }
  exists names. split; [exact Hnames|].
  set (nd := flat_map gnode_reads (gf_nodes g)) in *. set (links := links_of g) in *.
  unfold read41. rewrite (ok_header _ _ _ Hp "4.1" _ eq_refl G). cbn [bind fst snd].
  change (smem "4.1" ["4"; "4.1"]%string) with true. cbn iota. unfold read_buffer41. rewrite L by lia.
  cbn [bind s_elements s_nodes s_raw s_pdata s_names s_links].
  unfold gelements_read. cbn [el_cells el_phys el_geom el_sets el_bounds]. 
  assert (Ecd : cell_data_from_raw (map blen (file_cells g)) cr = by_block g cr).
  { unfold cell_data_from_raw, by_block. apply map_ext_in. intros kv Hin. f_equal. rewrite Forall_forall in Hcr. specialize (Hcr _ Hin).
    assert (Eb : map blen (file_cells g) = map (fun b => length (gl_rows b)) (gf_elements g)).
    { unfold file_cells. rewrite map_map. apply map_ext. intros b. unfold blen. cbn [bdata]. apply map_length. }
    rewrite Eb. apply from_raw_split.
    - destruct (fo_elements _ W) as (Hne & _). destruct (gf_elements g); [congruence|discriminate].
    - rewrite Hcr. clear. induction (gf_elements g) as [|b l IH]; [reflexivity|]. cbn [flat_map map sum_nat]. rewrite app_length, IH. reflexivity. }
  assert (Ecf : forallb (fun kv => lengths_fit (file_cells g) (snd kv)) (by_block g cr) = true).
  { apply forallb_forall. intros kv Hin. unfold by_block in Hin. apply in_map_iff in Hin. destruct Hin as (x & <- & Hx). cbn [snd]. rewrite Forall_forall in Hcr. specialize (Hcr _ Hx).
    apply per_cell_fits. unfold per_cell, file_cells. clear - Hcr. revert Hcr. generalize (snd x). induction (gf_elements g) as [|b l IH]; intros r Hr; cbn [map split_lens]; [constructor|].
    cbn [flat_map] in Hr. rewrite app_length in Hr. constructor; [|apply IH; rewrite skipn_length; lia]. unfold blen. cbn [bdata]. rewrite map_length, firstn_length. lia. }
  assert (En : map (fun x : Z * list F * (Z * Z) => snd (fst x)) nd = file_points g).
  { unfold nd, file_points. clear. induction (gf_nodes g) as [|b l IH]; [reflexivity|]. cbn [flat_map]. rewrite !map_app, IH. f_equal.
    unfold gnode_reads. now rewrite !map_map. }
  assert (Epd : forallb (fun kv : string * list (list F) => Nat.eqb (length (snd kv)) (length (file_points g))) pd = true).
  { apply forallb_forall. intros kv Hin. rewrite Forall_forall in Hpd. rewrite (Hpd _ Hin). apply Nat.eqb_eq. unfold file_points, gnode_tags. clear.
    induction (gf_nodes g) as [|b l IH]; [reflexivity|]. cbn [flat_map]. rewrite !app_length, !map_length, IH. reflexivity. }
  assert (Ed : map snd nd = flat_map (fun b => map (fun _ => gn_id b) (gn_nodes b)) (gf_nodes g)).
  { unfold nd. clear. induction (gf_nodes g) as [|b l IH]; [reflexivity|]. cbn [flat_map]. rewrite !map_app, IH. f_equal.
    unfold gnode_reads. now rewrite !map_map. }
  assert (El : links = m_periodic (file_mesh g names)).
  { unfold links, links_of, file_mesh. cbn [m_periodic]. reflexivity. }
  assert (Fit : forall d, d = map (fun b => repeat (hd 0%Z (block_groups g b)) (length (gl_rows b))) (gf_elements g) -> lengths_fit (file_cells g) d = true).
  { intros d ->. apply per_cell_fits. unfold per_cell, file_cells. clear. induction (gf_elements g) as [|b l IH]; cbn [map]; constructor; [|exact IH].
    unfold blen. cbn [bdata]. rewrite repeat_length, map_length. reflexivity. }
  unfold groups_agree. rewrite En, Ed, El, Ecd, Ecf, Epd. unfold with_data, file_mesh. cbn [andb m_points m_cells m_dim_tags m_phys m_geom m_bounds m_names m_sets m_periodic].
  destruct (fo_elements _ W) as (Hne & _).
  destruct (forallb (fun b => match block_groups g b with [] => true | _ => false end) (gf_elements g)) eqn:B0; cbn [orb].
  - assert (Z0 : garrays g (gf_elements g) = []).
    { clear - B0. induction (gf_elements g) as [|b l IH]; [reflexivity|]. cbn [forallb] in B0. apply andb_true_iff in B0. destruct B0 as [X Y].
      unfold garrays in *. cbn [flat_map]. rewrite (IH Y). destruct (block_groups g b); [reflexivity|discriminate]. }
    rewrite Z0. reflexivity.
  - destruct (forallb (fun b => match block_groups g b with [] => false | _ => true end) (gf_elements g)) eqn:B1.
    + rewrite (garrays_all g _ B1). destruct (gf_elements g) as [|b l] eqn:Eg; [congruence|].
      rewrite <- Eg in *. specialize (Fit _ eq_refl).
      destruct (map (fun b0 => repeat (hd 0%Z (block_groups g b0)) (length (gl_rows b0))) (gf_elements g)) eqn:Em; [rewrite Eg in Em; discriminate|].
      rewrite Fit. reflexivity.
    + destruct (garrays_length g (gf_elements g)) as [La Lb].
      destruct (garrays g (gf_elements g)) as [|a l] eqn:Eg; [apply garrays_nil in Eg; congruence|].
      replace (lengths_fit (file_cells g) (a :: l)) with false; [reflexivity|].
      symmetry. destruct (lengths_fit (file_cells g) (a :: l)) eqn:Q1; [|reflexivity]. exfalso.
      assert (X : length (a :: l) = length (file_cells g)).
      { unfold lengths_fit in Q1. apply andb_true_iff in Q1. destruct Q1 as [Q1 _]. apply Nat.eqb_eq in Q1. congruence. }
      unfold file_cells in X. rewrite map_length in X. specialize (Lb X). congruence.
Qed.
Theorem gmsh_file_tail g D pd cr : gfile_ok g ->
  (forall a b c d e, leads p good D (State41 a b c d e [] []) (State41 a b c d e pd cr)) ->
  Forall (fun kv => length (snd kv) = length (gnode_tags (gf_nodes g))) pd ->
  Forall (fun kv => length (snd kv) = length (flat_map gl_rows (gf_elements g))) cr ->
  exists names, (forall k, dget k names = dget k (gf_names g)) /\
    read41 p (gmsh_file p g ++ D) = if groups_agree g then Ok (with_data (file_mesh g names) pd (by_block g cr)) else Err ValueError.
Proof.
  intros W HD Hpd Hcr. destruct (mixed_file_tail (fun _ => []) g D pd cr (fun _ _ _ _ H => H) W (fun a b c d e => leads_ends _ _ _ (HD a b c d e)) Hpd Hcr) as (names & H1 & H2).
  exists names. split; [exact H1|]. unfold gmsh_file. rewrite <- !app_assoc. exact H2.
Qed.
Theorem gmsh_file_read g : gfile_ok g ->
  exists names, (forall k, dget k names = dget k (gf_names g)) /\
    read41 p (gmsh_file p g) = if groups_agree g then Ok (file_mesh g names) else Err ValueError.
Proof.
  intros W. destruct (gmsh_file_tail g [] [] [] W) as (names & H1 & H2).
  - intros. apply (leads_nil p good holds Hp).
  - constructor.
  - constructor.
  - exists names. split; [exact H1|]. rewrite app_nil_r in H2. exact H2.
Qed.
End GmshFile.

(** The vertices of a cell are the nodes with the tags of its element. *)
Lemma file_tags_points {F} (g : gfile F) k t x :
  nth_error (gnode_tags (gf_nodes g)) k = Some t -> nth_error (file_points g) k = Some x ->
  In (t, x) (flat_map gn_nodes (gf_nodes g)).
Proof.
  assert (E1 : gnode_tags (gf_nodes g) = map fst (flat_map gn_nodes (gf_nodes g))).
  { unfold gnode_tags. induction (gf_nodes g) as [|b l IH]; [reflexivity|]. cbn [flat_map]. now rewrite map_app, IH. }
  assert (E2 : file_points g = map snd (flat_map gn_nodes (gf_nodes g))).
  { unfold file_points. clear. induction (gf_nodes g) as [|b l IH]; [reflexivity|]. cbn [flat_map]. now rewrite map_app, IH. }
  rewrite E1, E2, !nth_error_map. destruct (nth_error (flat_map gn_nodes (gf_nodes g)) k) as [[t' x']|] eqn:E; [|discriminate].
  cbn. intros H1 H2. injection H1 as ->. injection H2 as ->. apply (nth_error_In _ _ E).
Qed.
Lemma file_points_length {F} (g : gfile F) : length (file_points g) = length (gnode_tags (gf_nodes g)).
Proof.
  unfold file_points, gnode_tags. induction (gf_nodes g) as [|b l IH]; [reflexivity|]. cbn [flat_map]. now rewrite !app_length, IH, !map_length.
Qed.
Lemma file_vertices {F} (g : gfile F) b r : gfile_ok g -> In b (gf_elements g) -> In r (gl_rows b) ->
  exists ns, gmsh_to_meshio_order (gl_type b) (snd r) = Ok ns /\
    Forall2 (fun i n => exists x, (0 <= i)%Z /\ nth_error (file_points g) (Z.to_nat i) = Some x /\ In (n, x) (flat_map gn_nodes (gf_nodes g)))
      (snd (element_cell (gnode_tags (gf_nodes g)) (Element (gl_type b) (fst r) [] (snd r)))) ns.
Proof.
  intros W Hb Hr. destruct (fo_elements _ W) as (_ & Hok & _). rewrite Forall_forall in Hok. destruct (Hok b Hb) as (_ & _ & _ & _ & _ & R4 & _).
  rewrite Forall_forall in R4. destruct (R4 r Hr) as (_ & Hn & Ht).
  destruct (gmsh_order_total _ _ _ Hn eq_refl) as (ns & E1 & _ & E2). exists ns. split; [exact E2|].
  cbn [element_cell snd e_type e_nodes]. rewrite E1.
  assert (H : Forall (fun n => In n (gnode_tags (gf_nodes g))) ns).
  { apply Forall_forall. intros n Hi. rewrite Forall_forall in Ht. apply Ht. eapply permute_In; eauto. }
  clear - H. induction H as [|n ns Hn H IH]; cbn [map]; constructor; auto. rewrite Nat2Z.id.
  pose proof (position_nth n _ Hn) as Q.
  assert (L : position n (gnode_tags (gf_nodes g)) < length (file_points g)) by (rewrite file_points_length; apply nth_error_Some; congruence).
  apply nth_error_Some in L. destruct (nth_error (file_points g) (position n (gnode_tags (gf_nodes g)))) as [x|] eqn:E; [|congruence].
  exists x. split; [lia|]. split; [reflexivity|]. now apply (file_tags_points g (position n (gnode_tags (gf_nodes g)))).
Qed.
