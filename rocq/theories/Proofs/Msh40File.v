(** Reading the MSH 4.0 files of Gmsh (C85). *)
From Coq Require Import ZArith NArith List String Ascii Bool Lia ZifyBool ZifyNat ZifyN.
From Verif.Lib Require Import Base Facts Facts2 Text TextFacts Lines LinesFacts Runs Perm Bytes BytesFacts File.
From Verif.Model Require Import Core Gmsh Gmsh22 Port Msh41 Msh40.
From Verif.Spec Require Import Core Blocks Gmsh Gmsh22 Msh41 Msh40 GmshFile Msh40File.
From Verif.Proofs Require Import Core CoreMisc Vtk Vtu Gmsh Gmsh22 Gmsh22File Port Msh41 Msh41File Msh40 GmshFile.
Import Model.Gmsh Model.Port Model.Msh41 Model.Msh40 Spec.Msh41 Spec.Msh40.
Import ListNotations.
Local Open Scope list_scope.

Lemma gnodes_rows40_ok {F} (b : gnodes F) : gnodes40_ok b -> rows_ok (gnodes_rows40 b).
Proof.
  intros (R1 & R2 & R3 & R4). unfold gnodes_rows40. constructor.
  - split; [discriminate|]. repeat (constructor; [first [assumption | cbn; lia]|]). constructor.
  - rewrite Forall_forall in R4. apply Forall_map, Forall_forall. intros n Hn. destruct (R4 n Hn) as [E L].
    split; [discriminate|]. constructor; [cbn; lia|]. apply Forall_map, Forall_forall. intros. exact I.
Qed.
Definition gnodes_list_ok {F} (gs : list (gnodes F)) : Prop :=
  gs <> [] /\ Forall gnodes40_ok gs /\ in_range CSize (Z.of_nat (length gs)) /\ in_range CSize (Z.of_nat (length (gnode_tags gs))).
Lemma all_nodes_rows40_ok {F} (gs : list (gnodes F)) : gnodes_list_ok gs -> rows_ok (all_nodes_rows40 gs).
Proof.
  intros (_ & Hg & H1 & H2). constructor; [split; [discriminate|repeat (constructor; [assumption|]); constructor]|].
  rewrite flat_map_concat_map. apply Forall_concat, Forall_map. eapply Forall_impl; [|exact Hg]. apply gnodes_rows40_ok.
Qed.
Definition gpoints {F} (gs : list (gnodes F)) : list (list F) := flat_map (fun b => map snd (gn_nodes b)) gs.
Lemma gpoints_all {F} (gs : list (gnodes F)) : map snd (flat_map gn_nodes gs) = gpoints gs.
Proof. unfold gpoints. induction gs as [|b l IH]; [reflexivity|]. cbn [flat_map]. now rewrite map_app, IH. Qed.
Lemma gtags_all {F} (gs : list (gnodes F)) : map fst (flat_map gn_nodes gs) = gnode_tags gs.
Proof. unfold gnode_tags. induction gs as [|b l IH]; [reflexivity|]. cbn [flat_map]. now rewrite map_app, IH. Qed.

(** What the two encodings have to do with the nodes. *)
Definition gnodes_law {F} (p : port F) (good : list (unt p) -> Prop) : Prop :=
  forall gs rest, gnodes_list_ok gs -> good rest ->
    get_nodes40 p (put p (all_nodes_rows40 gs) ++ closing p "Nodes" ++ rest) = Ok (gpoints gs, gnode_tags gs, rest).

Section Ascii.
Context {fl : floats}.
Hypothesis Hfl : floats_ok fl.
Lemma gnode_line_ok (t : Z) (x : list fl) : length x = 3 ->
  node_line40 (row_line (map item_token (Int CInt t :: map Dbl x))) = Ok (t, x).
Proof.
  intros H. destruct x as [|a [|b [|c [|]]]]; try discriminate. unfold node_line40, row_line.
  rewrite split_ws_join by (now apply words_items). cbn [map item_token].
  change [ffmt a; ffmt b; ffmt c] with (map ffmt [a; b; c]). rewrite parse_floats_ok by exact Hfl. cbn [bind].
  now rewrite parse_Z_str_of_Z.
Qed.
Lemma gnode_blocks_ok (gs : list (gnodes fl)) rest : Forall gnodes40_ok gs ->
  node_blocks40 (length gs) (put_ascii (flat_map gnodes_rows40 gs) ++ rest) = Ok (flat_map gn_nodes gs, rest).
Proof.
  intros H. induction H as [|b gs Hb H IH]; [reflexivity|]. cbn [length node_blocks40 flat_map].
  rewrite put_ascii_app, <- app_assoc. set (tail := put_ascii (flat_map gnodes_rows40 gs) ++ rest) in *.
  change (put_ascii (gnodes_rows40 b) ++ tail) with (row_line (map str_of_Z [snd (gn_id b); fst (gn_id b); 0; Z.of_nat (length (gn_nodes b))]%Z)
    :: put_ascii (map (fun n => Int CInt (fst n) :: map Dbl (snd n)) (gn_nodes b)) ++ tail).
  cbn [line1 hd tl]. unfold put_ascii at 1.
  rewrite row_ints, parse_ints_ok. cbn [bind]. rewrite Nat2Z.id, map_map.
  rewrite (read_lines_n node_line40 (length (gn_nodes b)) _ (gn_nodes b)).
  - cbn [bind fst snd]. rewrite IH. reflexivity.
  - now rewrite map_length.
  - rewrite mapM_map. rewrite <- (map_id (gn_nodes b)) at 2. apply mapM_ok_in. intros [t x] Hn. cbn [fst snd]. apply gnode_line_ok.
    destruct Hb as (_ & _ & _ & Hb). rewrite Forall_forall in Hb. apply (Hb _ Hn).
Qed.
Lemma ascii_gnodes : gnodes_law (ascii_port (fl := fl)) solid.
Proof.
  intros gs rest (_ & Hg & _) Hr. cbn [ascii_port put closing get_nodes40]. unfold all_nodes_rows40.
  change (put_ascii ([Int (F := fl) CSize (Z.of_nat (length gs)); Int CSize (Z.of_nat (length (gnode_tags gs)))] :: flat_map gnodes_rows40 gs) ++ [end_line "Nodes"] ++ rest)
    with (row_line (map str_of_Z [Z.of_nat (length gs); Z.of_nat (length (gnode_tags gs))]) :: put_ascii (flat_map gnodes_rows40 gs) ++ [end_line "Nodes"] ++ rest).
  unfold get_nodes40_ascii. cbn [line1 hd tl]. rewrite row_ints, parse_ints_ok. cbn [bind]. rewrite Nat2Z.id, gnode_blocks_ok by exact Hg.
  cbn [bind fst snd]. rewrite <- gtags_all, map_length, Z.eqb_refl, gpoints_all.
  change (skip_to _ ([end_line "Nodes"] ++ rest)) with (skip_to (end_line "Nodes") (end_line "Nodes" :: rest)). now rewrite skip_to_here.
Qed.
End Ascii.

Section Binary.
Context {F : Type} (c8 : codec F).
Hypothesis Hc : codec_ok c8.
Definition nbytes (n : Z * list F) : bytes := int_bytes CInt (fst n) ++ concat (map (enc c8) (snd n)).
Lemma nbytes_index n : in_range CInt (fst n) -> int_of_bytes CInt (firstn 4 (nbytes n)) = fst n.
Proof.
  intros H. unfold nbytes. rewrite firstn_app. pose proof (int_bytes_length CInt (fst n)) as L. cbn [int_width] in L.
  rewrite L, Nat.sub_diag. rewrite firstn_all2 by lia. cbn [firstn]. rewrite app_nil_r. now apply int_roundtrip.
Qed.
Lemma nbytes_values n : map (dec c8) (chunks 8 (skipn 4 (nbytes n))) = snd n.
Proof.
  unfold nbytes. rewrite skipn_app. pose proof (int_bytes_length CInt (fst n)) as L. cbn [int_width] in L.
  rewrite L, Nat.sub_diag. rewrite skipn_all2 by lia. cbn [skipn app].
  rewrite chunks_concat; [|lia|apply Forall_map, Forall_forall; intros; apply Hc].
  rewrite map_map. apply map_id_in. intros; apply Hc.
Qed.
Lemma nbytes_taken l rest : Forall (fun n : Z * list F => length (snd n) = 3) l ->
  take_items 28 (length l) (concat (map nbytes l) ++ rest) = (map nbytes l, rest).
Proof.
  intros H.
  assert (Hw : Forall (fun x => length x = 28) (map nbytes l)).
  { apply Forall_map. eapply Forall_impl; [|exact H]. intros n Hn. unfold nbytes. rewrite app_length, int_bytes_length.
    rewrite (concat_uniform_length 8) by (apply Forall_map, Forall_forall; intros; apply Hc). rewrite map_length, Hn. reflexivity. }
  rewrite <- (take_items_ok 28 _ rest) with (2 := Hw) by lia. now rewrite map_length.
Qed.
Lemma gnode_blocks_binary (gs : list (gnodes F)) s rest : Forall gnodes40_ok gs ->
  holds_binary c8 s (concat (flat_map gnodes_rows40 gs)) rest -> node_blocks40_binary c8 (length gs) s = Ok (flat_map gn_nodes gs, rest).
Proof.
  intros H. revert s. induction H as [|b gs Hb H IH]; intros s Hs.
  - unfold holds_binary in Hs. cbn in Hs. subst s. reflexivity.
  - cbn [length node_blocks40_binary flat_map]. cbn [flat_map] in Hs. rewrite concat_app in Hs. unfold gnodes_rows40 at 1 in Hs. cbn [concat app] in Hs.
    destruct Hb as (R1 & R2 & R3 & R4). rewrite <- ?app_assoc in Hs. cbn [app] in Hs.
    destruct (get_ints_binary_ok c8 CInt [snd (gn_id b); fst (gn_id b); 0]%Z _ _ _ (ltac:(repeat (constructor; [first [assumption | cbn; lia]|]); constructor)) Hs) as (s2 & A2 & H2).
    cbn [length] in A2. rewrite A2. cbn [bind fst snd].
    destruct (get_ints_binary_ok c8 CSize [Z.of_nat (length (gn_nodes b))]%Z _ _ _ (ltac:(repeat (constructor; [assumption|]); constructor)) H2) as (s3 & A3 & H3).
    cbn [length] in A3. rewrite A3. cbn [bind fst snd]. rewrite Nat2Z.id.
    assert (E : concat (map (item_bytes c8) (concat (map (fun n : Z * list F => Int CInt (fst n) :: map Dbl (snd n)) (gn_nodes b)))) =
                concat (map nbytes (gn_nodes b))).
    { clear. induction (gn_nodes b) as [|n l IH]; [reflexivity|]. cbn [map concat]. rewrite map_app, concat_app, IH. f_equal.
      unfold nbytes. cbn [map concat item_bytes]. now rewrite map_map. }
    unfold holds_binary in H3. rewrite map_app, concat_app, E, <- app_assoc in H3. subst s3.
    rewrite nbytes_taken by (eapply Forall_impl; [|exact R4]; cbn; tauto). cbn [fst snd].
    rewrite (IH _ eq_refl). cbn [bind fst snd]. f_equal. f_equal. f_equal. rewrite map_map. apply map_id_in. intros n Hn.
    rewrite Forall_forall in R4. destruct (R4 n Hn) as [E1 _]. rewrite nbytes_index by (cbn; lia). rewrite nbytes_values. now destruct n.
Qed.
Lemma binary_gnodes_bytes (gs : list (gnodes F)) (rest : bytes) : gnodes_list_ok gs -> Forall is_byte rest ->
  get_nodes40_binary c8 (put_binary c8 (all_nodes_rows40 gs) ++ closing_binary "Nodes" ++ rest) = Ok (gpoints gs, gnode_tags gs, rest).
Proof.
  intros W Hr.
  assert (Gc : Forall is_byte (closing_binary "Nodes" ++ rest)) by (apply Forall_app; split; [apply closing_byte|exact Hr]).
  assert (H : holds_binary c8 (put_binary c8 (all_nodes_rows40 gs) ++ closing_binary "Nodes" ++ rest) (concat (all_nodes_rows40 gs)) (closing_binary "Nodes" ++ rest))
    by (exact (ok_put _ _ _ (binary_port_ok c8 Hc) (all_nodes_rows40 gs) _ Gc (all_nodes_rows40_ok gs W))).
  destruct W as (Hne & Hg & W1 & W2).
  unfold all_nodes_rows40 at 2 in H. cbn [concat app] in H.
  unfold get_nodes40_binary.
  destruct (get_ints_binary_ok c8 CSize [Z.of_nat (length gs); Z.of_nat (length (gnode_tags gs))]%Z _ _ _ (ltac:(repeat (constructor; [assumption|]); constructor)) H) as (s1 & A1 & H1).
  cbn [length] in A1. rewrite A1. cbn [bind fst snd]. replace (Z.of_nat (length gs) =? 0)%Z with false by (destruct gs; [congruence|reflexivity]).
  rewrite Nat2Z.id, (gnode_blocks_binary gs _ _ Hg H1). cbn [bind fst snd]. cbn [closing_binary app]. change (N.eqb 10 10) with true. cbn iota.
  rewrite gpoints_all, gtags_all. f_equal. f_equal.
  unfold skip_end_binary. rewrite to_lines_text by (constructor; [reflexivity|constructor]). cbn [app]. rewrite skip_to_here by reflexivity. now apply of_to_lines.
Qed.
Lemma binary_gnodes : gnodes_law (binary_port c8) (Forall is_byte).
Proof. exact binary_gnodes_bytes. Qed.
End Binary.

Section File.
Context {F : Type} (p : port F) (good : list (unt p) -> Prop)
  (holds : list (unt p) -> list (item F) -> list (unt p) -> Prop).
Hypothesis Hp : port_ok p good holds.
Hypothesis Hnodes : gnodes_law p good.

(** ** Entities *)
Lemma gread_entity40 d e items s rest : gentity40_ok e -> fst (ge_id e) = Z.of_nat d -> holds s (gentity_row e ++ items) rest ->
  exists s', read_entity40 p d s = Ok ((snd (ge_id e), ge_groups e), s') /\ holds s' items rest.
Proof.
  intros (_ & Ht & Lb & P1 & P2 & B1 & B2) Ed H. unfold gentity_row in H. cbn [app] in H.
  rewrite <- app_assoc in H. cbn [app] in H. rewrite <- app_assoc in H. unfold read_entity40.
  destruct (get_one_ok p good holds Hp CInt _ _ _ _ Ht H) as (s1 & A1 & H1). rewrite A1. cbn [bind fst snd].
  destruct (floats_n p good holds Hp 6 (ge_box e) _ _ _ ltac:(now rewrite Lb) H1) as (s2 & A2 & H2).
  rewrite A2. cbn [bind fst snd].
  destruct (get_one_ok p good holds Hp CSize _ _ _ _ P2 H2) as (s3 & A3 & H3).
  rewrite A3. cbn [bind fst snd]. rewrite Nat2Z.id.
  destruct (ints_n p good holds Hp CInt _ (ge_groups e) _ _ _ eq_refl P1 H3) as (s4 & A4 & H4). rewrite A4. cbn [bind fst snd].
  rewrite Ed in H4. destruct d as [|d]; cbn [Nat.eqb].
  - exists s4. split; [reflexivity|exact H4].
  - replace (Z.of_nat (S d) =? 0)%Z with false in H4 by lia. cbn [app] in H4.
    destruct (get_one_ok p good holds Hp CSize _ _ _ _ B2 H4) as (s5 & A5 & H5). rewrite A5. cbn [bind fst snd]. rewrite Nat2Z.id.
    destruct (ints_n p good holds Hp CInt _ (ge_bounds e) _ _ _ eq_refl B1 H5) as (s6 & A6 & H6). rewrite A6. cbn [bind fst snd].
    exists s6. auto.
Qed.
Lemma gread_entities_of40 d es items s rest pt : Forall gentity40_ok es -> Forall (fun e => fst (ge_id e) = Z.of_nat d) es ->
  holds s (flat_map gentity_row es ++ items) rest ->
  exists s', read_entities_of40 p d (length es) s pt = Ok (gdict ge_groups es ++ pt, s') /\ holds s' items rest.
Proof.
  intros Hok. revert s pt. induction Hok as [|e es He Hok IH]; intros s pt Hd H.
  - exists s. split; [reflexivity|exact H].
  - inversion Hd as [|? ? He1 Hd1]; subst. cbn [flat_map] in H. rewrite <- app_assoc in H.
    destruct (gread_entity40 d e _ _ _ He He1 H) as (s1 & A1 & H1).
    cbn [length read_entities_of40]. rewrite A1. cbn [bind fst snd].
    destruct (IH s1 ((ge_id e, ge_groups e) :: pt) Hd1 H1) as (s2 & A2 & H2).
    exists s2. split; [|exact H2].
    rewrite <- He1. replace (fst (ge_id e), snd (ge_id e)) with (ge_id e) by now destruct (ge_id e).
    rewrite A2. unfold gdict. cbn [map rev]. now rewrite <- !app_assoc.
Qed.
Definition gdict40_ok (es : list (gentity F)) (pt : tagdict) : Prop := forall e, In e es -> tag_get (ge_id e) pt = Some (ge_groups e).
Lemma gentities_section40 es : NoDup (map ge_id es) -> Forall gentity40_ok es -> in_range CSize (Z.of_nat (length es)) ->
  exists pt, gdict40_ok es pt /\
    forall rest, good rest ->
      read_entities40 p (put p (gentities_rows es) ++ closing p "Entities" ++ rest) = Ok (pt, rest) /\
      good (put p (gentities_rows es) ++ closing p "Entities" ++ rest).
Proof.
  intros Hd Hok Hn. set (D := entities_of_dim es).
  exists (concat (map (gdict ge_groups) [D 3; D 2; D 1; D 0]%Z)).
  assert (I : forall d, incl (D d) es) by (intros d x Hx; apply entities_of_dim_In in Hx; tauto).
  assert (Dok : forall d, Forall gentity40_ok (D d)) by (intros d; apply Forall_forall; intros x Hx; apply I in Hx; rewrite Forall_forall in Hok; auto).
  assert (Dd : forall d, Forall (fun e => fst (ge_id e) = Z.of_nat d) (D (Z.of_nat d))) by (intros d; apply Forall_forall; intros x Hx; now apply entities_of_dim_In in Hx).
  assert (Dl : forall d, in_range CSize (Z.of_nat (length (D d)))).
  { intros d. cbn in Hn |- *. assert (length (D d) <= length es); [|lia]. unfold D, entities_of_dim. clear. induction es as [|x l IH]; cbn; [lia|]. destruct (_ =? d)%Z; cbn; lia. }
  split.
  - intros e He. rewrite Forall_forall in Hok. destruct (Hok e He) as (De & _). pose proof (ids_unique es Hd) as Hu. apply gdict_lookup with (es := es); [|exact He| |exact Hu].
    + intros l [<-|[<-|[<-|[<-|[]]]]]; apply I.
    + assert (fst (ge_id e) = 0 \/ fst (ge_id e) = 1 \/ fst (ge_id e) = 2 \/ fst (ge_id e) = 3)%Z as C by lia.
      cbn [concat]. rewrite !in_app_iff. unfold D. rewrite !entities_of_dim_In. tauto.
  - intros rest Hrest.
    assert (Gc : good (closing p "Entities" ++ rest)) by (apply (ok_good_close _ _ _ Hp); [reflexivity|exact Hrest]).
    assert (Rok : rows_ok (gentities_rows es)).
    { constructor; [split; [discriminate|apply Forall_map, Forall_forall; intros d _; apply Dl]|].
      apply Forall_map, Forall_forall. intros e Hi. apply in_flat_map in Hi. destruct Hi as (d & _ & Hi). apply I in Hi.
      rewrite Forall_forall in Hok. destruct (Hok e Hi) as (_ & Ht & _ & P1 & P2 & B1 & B2). split; [discriminate|]. unfold gentity_row.
      constructor; [exact Ht|]. apply Forall_app. split; [apply Forall_map, Forall_forall; intros; exact Logic.I|]. constructor; [exact P2|].
      apply Forall_app. split; [now apply Forall_map|]. destruct (_ =? 0)%Z; [constructor|]. constructor; [exact B2|now apply Forall_map]. }
    split; [|apply (ok_good_put _ _ _ Hp); auto].
    pose proof (ok_put _ _ _ Hp _ _ Gc Rok) as H. unfold gentities_rows at 2 in H. cbn [concat] in H. rewrite <- flat_map_concat_map in H.
    cbn [map app flat_map] in H. rewrite app_nil_r, !flat_map_app in H. fold (D 0%Z) (D 1%Z) (D 2%Z) (D 3%Z) in H. unfold read_entities40.
    destruct (ints4_ok p good holds Hp CSize _ _ _ _ _ _ _ (Dl 0%Z) (Dl 1%Z) (Dl 2%Z) (Dl 3%Z) H) as (s0 & A0 & H0). rewrite A0. cbn [bind fst snd].
    cbn [read_dims40]. rewrite !Nat2Z.id.
    destruct (gread_entities_of40 0 (D 0%Z) _ _ _ [] (Dok _) (Dd 0) H0) as (s1 & A1 & H1). rewrite A1. cbn [bind fst snd].
    match type of A1 with _ = Ok (?a, _) => destruct (gread_entities_of40 1 (D 1%Z) _ _ _ a (Dok _) (Dd 1) H1) as (s2 & A2 & H2) end.
    rewrite A2. cbn [bind fst snd].
    match type of A2 with _ = Ok (?a, _) => destruct (gread_entities_of40 2 (D 2%Z) _ _ _ a (Dok _) (Dd 2) H2) as (s3 & A3 & H3) end.
    rewrite A3. cbn [bind fst snd].
    match type of A3 with _ = Ok (?a, _) => destruct (gread_entities_of40 3 (D 3%Z) [] s3 (closing p "Entities" ++ rest) a (Dok _) (Dd 3)) as (s4 & A4 & H4) end.
    { rewrite app_nil_r. exact H3. }
    rewrite A4. cbn [bind fst snd]. rewrite (ok_nil _ _ _ Hp _ _ H4), (ok_skip _ _ _ Hp) by auto. reflexivity.
Qed.

(** ** Elements *)
Lemma type_code40_ok b (g : gfile F) : gelements40_ok g b -> dget (gl_type b) meshio_to_gmsh_type = Some (type_code (gl_type b)) /\ in_range CInt (type_code (gl_type b)).
Proof.
  intros (_ & _ & (c & Hc) & (d & Hd) & _). unfold type_code. rewrite Hc. split; [reflexivity|].
  destruct (gmsh_dims _ _ _ Hc Hd). cbn. lia.
Qed.
Lemma tags40_range (g : gfile F) : gfile40_ok g -> Forall (fun t => 0 <= t < 2 ^ 31)%Z (gnode_tags (gf_nodes g)).
Proof.
  intros W. apply Forall_forall. intros t Ht. unfold gnode_tags in Ht. apply in_flat_map in Ht. destruct Ht as (b' & Hb' & E2).
  apply in_map_iff in E2. destruct E2 as (n' & <- & E2).
  destruct (fo4_nodes _ W) as [Ng _]. rewrite Forall_forall in Ng. destruct (Ng b' Hb') as (_ & _ & _ & Q). rewrite Forall_forall in Q.
  apply (Q n' E2).
Qed.
Lemma gelements_rows40_ok (g : gfile F) b : gfile40_ok g -> gelements40_ok g b -> rows_ok (F := F) (gelements_rows40 b).
Proof.
  intros W Hb. destruct (type_code40_ok _ _ Hb) as [_ Rc]. destruct Hb as (R1 & R2 & _ & _ & (_ & R3) & R4 & _). unfold gelements_rows40. constructor.
  - split; [discriminate|]. repeat (constructor; [first [assumption | cbn; lia]|]). constructor.
  - apply Forall_map, Forall_forall. rewrite Forall_forall in R4. intros r Hr. destruct (R4 r Hr) as (E1 & _ & E2).
    split; [discriminate|]. constructor; [exact E1|]. apply Forall_map, Forall_forall. intros n Hn. rewrite Forall_forall in E2. specialize (E2 n Hn).
    pose proof (tags40_range g W) as T. rewrite Forall_forall in T. specialize (T n E2). cbn. lia.
Qed.
Lemma gread_block40 (g : gfile F) b items s rest : gfile40_ok g -> gelements40_ok g b -> holds s (concat (gelements_rows40 b) ++ items) rest ->
  exists s', read_block40 p s = Ok (gblock_read b, s') /\ holds s' items rest.
Proof.
  intros W Hb H. pose proof (gelements_rows40_ok g b W Hb) as Rok. destruct (type_code40_ok _ _ Hb) as [Hc Rc].
  destruct Hb as (R1 & R2 & _ & _ & (Ne & R3) & R4 & _). unfold gelements_rows40 in H, Rok. cbn [concat app] in H.
  unfold read_block40.
  destruct (ints3_ok p good holds Hp CInt _ _ _ _ _ _ R2 (ltac:(cbn; lia) : in_range CInt (fst (gl_id b))) Rc H) as (s1 & A1 & H1).
  rewrite A1. cbn [bind fst snd].
  destruct (get_one_ok p good holds Hp CSize _ _ _ _ R3 H1) as (s2 & A2 & H2).
  rewrite A2. cbn [bind fst snd]. rewrite (gmsh_codes _ _ Hc). cbn [of_option bind].
  assert (Hw : exists n, dget (gl_type b) num_nodes_per_cell = Some n /\ Forall (fun r => length (snd r) = n) (gl_rows b)).
  { rewrite Forall_forall in R4. destruct (gl_rows b) as [|r rows]; [congruence|]. destruct (R4 r (or_introl eq_refl)) as (_ & E & _).
    exists (length (snd r)). split; [exact E|]. apply Forall_forall. intros r' Hr'. destruct (R4 r' Hr') as (_ & E' & _). congruence. }
  destruct Hw as (n & Hn & Hr). rewrite Hn. cbn [of_option bind]. rewrite Nat2Z.id.
  set (rows := map (fun r => fst r :: snd r) (gl_rows b)).
  assert (U : Forall (fun r => length r = 1 + n) rows).
  { apply Forall_map. eapply Forall_impl; [|exact Hr]. cbn. intros r ->. reflexivity. }
  assert (L : length (concat rows) = length (gl_rows b) * (1 + n)).
  { rewrite (concat_uniform_length (1 + n)) by exact U. unfold rows. rewrite map_length. lia. }
  rewrite <- (map_map (fun r : Z * list Z => fst r :: snd r) (map (Int CInt))), concat_map_map in H2. fold rows in H2.
  destruct (ints_n p good holds Hp CInt (length (gl_rows b) * (1 + n)) (concat rows) items s2 rest ltac:(now rewrite L)) as (s3 & A3 & H3).
  { inversion Rok as [|? ? _ Rr]; subst. apply Forall_concat, Forall_map. apply Forall_map in Rr. eapply Forall_impl; [|exact Rr]. cbn [fst snd].
    intros r [_ Q]. inversion Q as [|? ? Q1 Q2]; subst. constructor; [exact Q1|]. rewrite Forall_map in Q2. exact Q2. }
  { exact H2. }
  rewrite A3. cbn [bind fst snd]. rewrite L, Nat.eqb_refl.
  replace (Nat.eqb (length (gl_rows b)) 0) with false by (destruct (gl_rows b); [congruence|reflexivity]).
  cbn [orb negb]. exists s3. split; [|exact H3]. f_equal. f_equal. unfold gblock_read.
  rewrite chunks_concat by (auto; lia). f_equal; [now destruct (gl_id b)|]. unfold rows. rewrite map_map. reflexivity.
Qed.
Lemma gread_blocks40 (g : gfile F) bs items s rest : gfile40_ok g -> Forall (gelements40_ok g) bs -> holds s (concat (flat_map gelements_rows40 bs) ++ items) rest ->
  exists s', read_blocks40 p (length bs) s = Ok (map gblock_read bs, s') /\ holds s' items rest.
Proof.
  intros W Hg. revert s. induction Hg as [|b bs Hg Hgs IH]; intros s H.
  - exists s. auto.
  - cbn [flat_map] in H. rewrite concat_app, <- app_assoc in H. destruct (gread_block40 g b _ _ _ W Hg H) as (s1 & A1 & H1).
    destruct (IH s1 H1) as (s2 & A2 & H2). exists s2. split; [|exact H2]. cbn [length read_blocks40 map].
    rewrite A1. cbn [bind fst snd]. rewrite A2. reflexivity.
Qed.
Lemma gcell40_ok tags table t id nodes :
  (forall k z, nth_error tags k = Some z -> znth table z = Some (Z.of_nat k)) ->
  dget t num_nodes_per_cell = Some (length nodes) -> Forall (fun n => In n tags) nodes ->
  (do ns <- lookup_cell table nodes; gmsh_to_meshio_order t ns) = Ok (snd (element_cell tags (Element t id [] nodes))).
Proof.
  intros Ht Hn Hin. rewrite (lookup_cell_ok _ table _ Ht (map (fun n => position n tags) nodes)).
  - cbn [bind]. rewrite map_map. destruct (gmsh_order_total t nodes _ Hn eq_refl) as (ns & E1 & _ & E2).
    rewrite (gmsh_order_map t (fun n => Z.of_nat (position n tags)) nodes ns E2). cbn [element_cell snd e_type e_nodes]. now rewrite E1.
  - clear - Hin. induction Hin as [|n nodes Hn Hin IH]; cbn [map]; constructor; [now apply position_nth|exact IH].
Qed.
Definition gents40_ok (g : gfile F) (ents : option tagdict) : Prop :=
  match gf_entities g, ents with
  | Some es, Some pt => gdict40_ok es pt
  | None, None => True
  | _, _ => False
  end.
Lemma gphysical_of40 g ents b : gents40_ok g ents -> gelements40_ok g b -> physical_of ents (gblock_read b) = Ok (block_groups g b).
Proof.
  intros He Hb. destruct Hb as (R1 & _ & _ & _ & _ & _ & Hin). unfold gents40_ok, block_groups in *. unfold physical_of.
  destruct (gf_entities g) as [es|]; destruct ents as [pt|]; try contradiction; [|reflexivity].
  destruct (find_entity_ok es _ Hin) as (e & E1 & E2 & E3). rewrite E1. pose proof (He e E2) as G. unfold tag_lookup, gblock_read. cbn [rb_entity].
  replace ((0 <=? fst (gl_id b))%Z && (fst (gl_id b) <=? 3)%Z) with true by lia. rewrite <- E3, G. reflexivity.
Qed.
Definition gelements_read40 (g : gfile F) : elements40 :=
  Elements40 (file_cells g) (match garrays g (gf_elements g) with [] => None | l => Some l end) (o_geom (file_mesh40 g [])).
Lemma gelements_section40 g ents : gfile40_ok g -> gents40_ok g ents -> forall rest, good rest ->
  read_elements40 p (gnode_tags (gf_nodes g)) ents (put p (all_elements_rows40 (gf_elements g)) ++ closing p "Elements" ++ rest) =
    Ok (gelements_read40 g, rest) /\
  good (put p (all_elements_rows40 (gf_elements g)) ++ closing p "Elements" ++ rest).
Proof.
  intros W He rest Hrest. destruct (fo4_elements _ W) as (Ne & Hok & Nl & Nt).
  assert (Gc : good (closing p "Elements" ++ rest)) by (apply (ok_good_close _ _ _ Hp); [reflexivity|exact Hrest]).
  assert (Rok : rows_ok (F := F) (all_elements_rows40 (gf_elements g))).
  { constructor; [split; [discriminate|repeat (constructor; [assumption|]); constructor]|].
    rewrite flat_map_concat_map. apply Forall_concat, Forall_map. eapply Forall_impl; [|exact Hok]. intros b. now apply gelements_rows40_ok. }
  split; [|apply (ok_good_put _ _ _ Hp); auto].
  pose proof (ok_put _ _ _ Hp _ _ Gc Rok) as H. unfold all_elements_rows40 at 2 in H. cbn [concat app] in H. unfold read_elements40.
  destruct (ints_n p good holds Hp CSize 2 [Z.of_nat (length (gf_elements g)); Z.of_nat (length (flat_map gl_rows (gf_elements g)))] _ _ _ eq_refl
    (ltac:(repeat (constructor; [assumption|]); constructor)) H) as (s1 & A1 & H1).
  rewrite A1. cbn [bind fst snd]. rewrite Nat2Z.id.
  destruct (gread_blocks40 g (gf_elements g) [] s1 (closing p "Elements" ++ rest) W Hok) as (s2 & A2 & H2); [now rewrite app_nil_r|].
  rewrite A2. cbn [bind fst snd]. rewrite Forall_forall in Hok.
  rewrite mapM_map. rewrite (mapM_ok_in _ (block_groups g)) by (intros b Hb; apply gphysical_of40; auto). cbn [bind].
  destruct (fo4_tags _ W) as (T1 & T2 & _). pose proof (tags40_range g W) as T3.
  destruct (lookup_table_ok (gnode_tags (gf_nodes g)) T1 T2) as (table & Et & Ht).
  { eapply Forall_impl; [|exact T3]. cbn. intros; lia. }
  rewrite Et. cbn [bind]. rewrite mapM_map.
  rewrite (mapM_ok_in _ (fun b => Block (gl_type b)
     (map (fun r => snd (element_cell (gnode_tags (gf_nodes g)) (Element (gl_type b) (fst r) [] (snd r)))) (gl_rows b)))).
  2:{ intros b Hb. unfold gblock_read. cbn [rb_type rb_rows]. destruct (Hok b Hb) as (_ & _ & _ & (d & Hd) & _ & R4 & _).
      rewrite mapM_map. rewrite (mapM_ok_in _ (fun r => snd (element_cell (gnode_tags (gf_nodes g)) (Element (gl_type b) (fst r) [] (snd r))))).
      - cbn [bind]. rewrite Hd. reflexivity.
      - intros r Hr. rewrite Forall_forall in R4. destruct (R4 r Hr) as (_ & E1 & E2). now apply gcell40_ok. }
  cbn [bind]. rewrite (ok_nil _ _ _ Hp _ _ H2), (ok_skip _ _ _ Hp) by auto. unfold gelements_read40, physical_arrays. rewrite garrays_ok.
  f_equal. f_equal. cbn [file_mesh40 o_geom]. f_equal.
  assert (Er : forall l, map (fun b => repeat (snd (rb_entity b)) (length (rb_rows b))) (map gblock_read l) = map (fun b => repeat (snd (gl_id b)) (length (gl_rows b))) l).
  2:{ destruct (gf_elements g) as [|b bs]; [congruence|]. now rewrite <- Er. }
  intros l. rewrite map_map. apply map_ext. intros b'. unfold gblock_read. cbn [rb_entity rb_rows]. now rewrite map_length.
Qed.

(** ** Links *)
Lemma glink_rows40_down (k : link F) : link_rows40 (glink_read40 k) = glink_rows40 k.
Proof.
  unfold link_rows40, glink_rows40, glink_read40. cbn [k_dim k_slave k_master k_nodes k_affine]. rewrite map_map, map_length. cbn [app]. f_equal. f_equal.
  apply map_ext. intros [u v]. cbn [fst snd]. replace (u - 1 + 1)%Z with u by lia. now replace (v - 1 + 1)%Z with v by lia.
Qed.
Lemma glinks_rows40_down (ks : list (link F)) : periodic_rows (map glink_read40 ks) = glinks_rows40 ks.
Proof.
  unfold periodic_rows, glinks_rows40. rewrite map_length. f_equal. induction ks as [|k ks IH]; [reflexivity|]. cbn [map flat_map].
  now rewrite IH, glink_rows40_down.
Qed.
Lemma glink40_plain k : glink40_ok k -> plain_link (F := F) (glink_read40 k).
Proof.
  intros (R1 & R2 & R3 & R4 & R5 & R6). unfold plain_link, glink_read40. cbn [k_dim k_slave k_master k_nodes k_affine]. rewrite map_length.
  repeat (split; [assumption|]). split; [|split; [assumption|reflexivity]]. apply Forall_map. eapply Forall_impl; [|exact R4]. intros [a b]. cbn [fst snd].
  replace (a - 1 + 1)%Z with a by lia. now replace (b - 1 + 1)%Z with b by lia.
Qed.

(** ** The file *)
Definition mixed_body40 (w : nat -> list (unt p)) (g : gfile F) (D : list (unt p)) : list (unt p) :=
  w 0 ++ text p (write_physical_names (gf_names g)) ++ w 1
  ++ match gf_entities g with Some es => section p "Entities" (gentities_rows es) | None => [] end ++ w 2
  ++ section p "Nodes" (all_nodes_rows40 (gf_nodes g)) ++ w 3 ++ section p "Elements" (all_elements_rows40 (gf_elements g)) ++ w 4
  ++ match gf_links g with Some ks => section p "Periodic" (glinks_rows40 ks) | None => [] end ++ D.
Theorem mixed_file40_tail w g D pd cr : (forall i rest st st', leads40 p good rest st st' -> leads40 p good (w i ++ rest) st st') -> gfile40_ok g -> (forall ks, gf_links g = Some ks -> periodic_law p good (map glink_read40 ks)) ->
  (forall a b c d e, leads40 p good D (State40 a b c d e [] []) (State40 a b c d e pd cr)) ->
  Forall (fun kv => length (snd kv) = length (gnode_tags (gf_nodes g))) pd ->
  Forall (fun kv => length (snd kv) = length (flat_map gl_rows (gf_elements g))) cr ->
  Forall (fun kv => ~ In (fst kv) ["gmsh:physical"; "gmsh:geometrical"]%string) cr ->
  exists names, (forall k, dget k names = dget k (gf_names g)) /\
    read40 p (put_header p "4.0" ++ mixed_body40 w g D) = if groups_agree g then Ok (with_data40 (file_mesh40 g names) pd (by_block g cr)) else Err ValueError.
Proof.
  intros Hw W Hper HD Hpd Hcr Hkeys.
  set (links := option_map (map glink_read40) (gf_links g)).
  set (nd := (gpoints (gf_nodes g), gnode_tags (gf_nodes g))).
  set (Q := match gf_links g with Some ks => section p "Periodic" (glinks_rows40 ks) | None => [] end).
  set (E := section p "Elements" (all_elements_rows40 (gf_elements g))). set (N := section p "Nodes" (all_nodes_rows40 (gf_nodes g))).
  assert (Ent : exists ents, gents40_ok g ents /\
    forall nm rest st', leads40 p good rest (State40 None None ents nm None [] []) st' ->
      leads40 p good (match gf_entities g with Some es => section p "Entities" (gentities_rows es) | None => [] end ++ rest)
                   (State40 None None None nm None [] []) st').
  { unfold gents40_ok. destruct (gf_entities g) as [es|] eqn:Ee; [|exists None; split; [exact I|auto]].
    destruct (fo4_entities _ W es Ee) as (E1 & E2 & E3). destruct (gentities_section40 es E1 E2 E3) as (pt & Dk & R).
    exists (Some pt). split; [exact Dk|]. intros nm rest st' L. destruct (R rest (proj1 L)) as [B1 B2]. unfold section.
    rewrite <- !app_assoc in *. rewrite (app_assoc (put p (gentities_rows es))) in *.
    eapply (leads40_cons p good holds Hp); [reflexivity|exact B2| |exact L].
    match goal with |- read_section40 p "Entities" ?s (State40 ?a ?b ?c ?d ?e ?f ?h) = _ =>
      change (read_section40 p "Entities" s (State40 a b c d e f h)) with
        (do r <- read_entities40 p s; Ok (State40 (F:=F) a b (Some (fst r)) d e f h, snd r)) end.
    rewrite B1. reflexivity. }
  destruct Ent as (ents & He & Hent).
  set (fin := fun nm => State40 (F:=F) (Some nd) (Some (gelements_read40 g)) ents nm links pd cr).
  assert (T : forall nm, leads40 p good (w 1 ++ match gf_entities g with Some es => section p "Entities" (gentities_rows es) | None => [] end ++ w 2 ++ N ++ w 3 ++ E ++ w 4 ++ Q ++ D)
                           (State40 None None None nm None [] []) (fin nm)).
  { intros nm. apply Hw, Hent, Hw.
    assert (L2 : leads40 p good (w 4 ++ Q ++ D) (State40 (Some nd) (Some (gelements_read40 g)) ents nm None [] []) (fin nm)).
    { apply Hw. unfold Q, fin, links. destruct (gf_links g) as [ks|] eqn:Ek; [|apply HD].
      destruct (Hper ks eq_refl) as [K1 K2]. rewrite glinks_rows40_down in K1, K2. pose proof (proj1 (HD None None None [] None)) as G0. specialize (K2 D G0).
      unfold section. rewrite <- !app_assoc. rewrite (app_assoc (put p (glinks_rows40 ks))).
      eapply (leads40_cons p good holds Hp); [reflexivity| | |apply HD].
      - rewrite <- app_assoc. apply (ok_good_put _ _ _ Hp); [|exact K1]. now apply (ok_good_close _ _ _ Hp).
      - match goal with |- read_section40 p "Periodic" ?s (State40 ?a ?b ?c ?d ?e ?f ?g) = _ =>
          change (read_section40 p "Periodic" s (State40 a b c d e f g)) with (do r <- read_periodic40 p s; Ok (State40 a b c d (Some (fst r)) f g, snd r)) end.
        rewrite <- app_assoc, K2. reflexivity. }
    assert (L3 : leads40 p good (w 3 ++ E ++ w 4 ++ Q ++ D) (State40 (Some nd) None ents nm None [] []) (fin nm)).
    { apply Hw. destruct (gelements_section40 g ents W He _ (proj1 L2)) as [B1 B2]. unfold E, section.
      rewrite <- !app_assoc in *. rewrite (app_assoc (put p (all_elements_rows40 (gf_elements g)))) in *.
      eapply (leads40_cons p good holds Hp); [reflexivity|exact B2| |exact L2].
      match goal with |- read_section40 p "Elements" ?s (State40 (Some ?a) ?b ?c ?d ?e ?f ?g) = _ =>
        change (read_section40 p "Elements" s (State40 (Some a) b c d e f g)) with
          (do r <- read_elements40 p (snd a) c s; Ok (State40 (Some a) (Some (fst r)) c d e f g, snd r)) end.
      unfold nd at 1. cbn [snd]. rewrite B1. reflexivity. }
    assert (Wn : gnodes_list_ok (gf_nodes g)).
    { destruct (fo4_nodes _ W) as [N1 N2]. destruct (fo4_tags _ W) as (N3 & _ & N4). split; [intros X; apply N3; now rewrite X|]. auto. }
    unfold N, section. rewrite <- !app_assoc. rewrite (app_assoc (put p (all_nodes_rows40 (gf_nodes g)))).
    eapply (leads40_cons p good holds Hp); [reflexivity| | |exact L3].
    - rewrite <- app_assoc. apply (ok_good_put _ _ _ Hp); [|now apply all_nodes_rows40_ok]. apply (ok_good_close _ _ _ Hp); [reflexivity|]. apply (proj1 L3).
    - match goal with |- read_section40 p "Nodes" ?s (State40 ?a ?b ?c ?d ?e ?f ?g) = _ =>
        change (read_section40 p "Nodes" s (State40 a b c d e f g)) with
          (do r <- get_nodes40 p s; let '(pts, tags, s') := r in Ok (State40 (Some (pts, tags)) b c d e f g, s')) end.
      rewrite <- app_assoc, Hnodes; [reflexivity|exact Wn|apply (proj1 L3)]. }
  assert (Nm : exists names, (forall k, dget k names = dget k (gf_names g)) /\
     leads40 p good (w 0 ++ text p (write_physical_names (gf_names g)) ++ w 1 ++
       match gf_entities g with Some es => section p "Entities" (gentities_rows es) | None => [] end ++ w 2 ++ N ++ w 3 ++ E ++ w 4 ++ Q ++ D) start40 (fin names)).
  { destruct (fo4_names _ W) as [N1 N2]. destruct (gf_names g) as [|x names] eqn:Em.
    - exists []. split; [reflexivity|]. apply Hw. rewrite (ok_no_names _ _ _ Hp). apply T.
    - destruct (ok_names _ _ _ Hp (x :: names) _ N1 N2 ltac:(discriminate) (proj1 (T []))) as (u & fd' & A & B1 & C & Dn & _).
      exists fd'. split; [exact Dn|]. apply Hw. rewrite A, <- app_assoc. eapply (leads40_cons p good holds Hp); [reflexivity|exact C| |exact (T fd')].
      match goal with |- read_section40 p "PhysicalNames" ?s start40 = _ =>
        change (read_section40 p "PhysicalNames" s start40) with (do r <- get_names p [] s; Ok (State40 (F:=F) None None None (fst r) None [] [], snd r)) end.
      rewrite B1. reflexivity. }
  destruct Nm as (names & Hnames & L). exists names. split; [exact Hnames|].
  unfold read40, mixed_body40. fold N E Q. rewrite (ok_header _ _ _ Hp "4.0" _ eq_refl (proj1 L)). cbn [bind fst snd].
  change (String.eqb "4.0" "4.0") with true. cbn iota. unfold read_buffer40. rewrite (leads40_read p good holds Hp _ _ _ L). unfold fin.
  cbn [bind t_elements t_nodes t_raw t_pdata t_names t_links]. unfold nd. cbn [fst].
  unfold gelements_read40. cbn [e4_cells e4_phys e4_geom]. change (gpoints (gf_nodes g)) with (file_points g).
  assert (Ecd : cell_data_from_raw (map blen (file_cells g)) cr = by_block g cr).
  { unfold cell_data_from_raw, by_block. apply map_ext_in. intros kv Hin. f_equal. rewrite Forall_forall in Hcr. specialize (Hcr _ Hin).
    assert (Eb : map blen (file_cells g) = map (fun b => length (gl_rows b)) (gf_elements g)).
    { unfold file_cells. rewrite map_map. apply map_ext. intros b. unfold blen. cbn [bdata]. apply map_length. }
    rewrite Eb. apply from_raw_split.
    - destruct (fo4_elements _ W) as (Hne & _). destruct (gf_elements g); [congruence|discriminate].
    - rewrite Hcr. clear. induction (gf_elements g) as [|b l IH]; [reflexivity|]. cbn [flat_map map sum_nat]. rewrite app_length, IH. reflexivity. }
  assert (Ecf : forallb (fun kv => lengths_fit (file_cells g) (snd kv)) (by_block g cr) = true).
  { apply forallb_forall. intros kv Hin. unfold by_block in Hin. apply in_map_iff in Hin. destruct Hin as (x & <- & Hx). cbn [snd]. rewrite Forall_forall in Hcr. specialize (Hcr _ Hx).
    apply per_cell_fits. unfold per_cell, file_cells. clear - Hcr. revert Hcr. generalize (snd x). induction (gf_elements g) as [|b l IH]; intros r Hr; cbn [map split_lens]; [constructor|].
    cbn [flat_map] in Hr. rewrite app_length in Hr. constructor; [|apply IH; rewrite skipn_length; lia]. unfold blen. cbn [bdata]. rewrite map_length, firstn_length. lia. }
  assert (Epd : forallb (fun kv : string * list (list F) => Nat.eqb (length (snd kv)) (length (file_points g))) pd = true).
  { apply forallb_forall. intros kv Hin. rewrite Forall_forall in Hpd. rewrite (Hpd _ Hin). apply Nat.eqb_eq. unfold file_points, gnode_tags. clear.
    induction (gf_nodes g) as [|b l IH]; [reflexivity|]. cbn [flat_map]. rewrite !app_length, !map_length, IH. reflexivity. }
  assert (Ec : forall el, without (tag_keys el) (by_block g cr) = by_block g cr).
  { intros el. unfold without. apply filter_id. intros kv Hin. unfold by_block in Hin. apply in_map_iff in Hin. destruct Hin as (x & <- & Hx). cbn [fst].
    rewrite Forall_forall in Hkeys. specialize (Hkeys _ Hx). apply negb_true_iff. destruct (smem (fst x) (tag_keys el)) eqn:Es; [|reflexivity]. exfalso. apply Hkeys.
    apply smem_In in Es. unfold tag_keys in Es. apply in_app_or in Es. destruct (e4_phys el), (e4_geom el); cbn in Es |- *; intuition. }
  rewrite Ecd, Ec, Ecf, Epd. cbn [andb].
  assert (Fit : forall d, d = map (fun b => repeat (hd 0%Z (block_groups g b)) (length (gl_rows b))) (gf_elements g) -> lengths_fit (file_cells g) d = true).
  { intros d ->. apply per_cell_fits. unfold per_cell, file_cells. clear. induction (gf_elements g) as [|b l IH]; cbn [map]; constructor; [|exact IH].
    unfold blen. cbn [bdata]. rewrite repeat_length, map_length. reflexivity. }
  unfold groups_agree, with_data40, file_mesh40. cbn [o_geom o_phys o_mesh q_points q_cells q_names q_periodic]. destruct (fo4_elements _ W) as (Hne & _).
  destruct (forallb (fun b => match block_groups g b with [] => true | _ => false end) (gf_elements g)) eqn:B0; cbn [orb].
  - assert (Z0 : garrays g (gf_elements g) = []).
    { clear - B0. induction (gf_elements g) as [|b l IH]; [reflexivity|]. cbn [forallb] in B0. apply andb_true_iff in B0. destruct B0 as [X Y].
      unfold garrays in *. cbn [flat_map]. rewrite (IH Y). destruct (block_groups g b); [reflexivity|discriminate]. }
    rewrite Z0. reflexivity.
  - destruct (forallb (fun b => match block_groups g b with [] => false | _ => true end) (gf_elements g)) eqn:B1.
    + rewrite (garrays_all g _ B1). destruct (gf_elements g) as [|b l] eqn:Eg; [congruence|].
      rewrite <- Eg in *. specialize (Fit _ eq_refl).
      destruct (map (fun b0 => repeat (hd 0%Z (block_groups g b0)) (length (gl_rows b0))) (gf_elements g)) eqn:Em; [rewrite Eg in Em; discriminate|].
      rewrite Fit. reflexivity.
    + destruct (garrays_length g (gf_elements g)) as [La Lb].
      destruct (garrays g (gf_elements g)) as [|a l] eqn:Eg; [apply garrays_nil in Eg; congruence|].
      replace (lengths_fit (file_cells g) (a :: l)) with false; [reflexivity|].
      symmetry. destruct (lengths_fit (file_cells g) (a :: l)) eqn:Q1; [|reflexivity]. exfalso.
      assert (X : length (a :: l) = length (file_cells g)).
      { unfold lengths_fit in Q1. apply andb_true_iff in Q1. destruct Q1 as [Q1 _]. apply Nat.eqb_eq in Q1. congruence. }
      unfold file_cells in X. rewrite map_length in X. specialize (Lb X). congruence.
Qed.
Theorem gmsh_file40_tail g D pd cr : gfile40_ok g -> (forall ks, gf_links g = Some ks -> periodic_law p good (map glink_read40 ks)) ->
  (forall a b c d e, leads40 p good D (State40 a b c d e [] []) (State40 a b c d e pd cr)) ->
  Forall (fun kv => length (snd kv) = length (gnode_tags (gf_nodes g))) pd ->
  Forall (fun kv => length (snd kv) = length (flat_map gl_rows (gf_elements g))) cr ->
  Forall (fun kv => ~ In (fst kv) ["gmsh:physical"; "gmsh:geometrical"]%string) cr ->
  exists names, (forall k, dget k names = dget k (gf_names g)) /\
    read40 p (gmsh_file40 p g ++ D) = if groups_agree g then Ok (with_data40 (file_mesh40 g names) pd (by_block g cr)) else Err ValueError.
Proof.
  intros W Hper HD Hpd Hcr Hkeys.
  destruct (mixed_file40_tail (fun _ => []) g D pd cr (fun _ _ _ _ H => H) W Hper HD Hpd Hcr Hkeys) as (names & H1 & H2).
  exists names. split; [exact H1|]. rewrite <- H2. unfold gmsh_file40, mixed_body40. rewrite <- !app_assoc. reflexivity.
Qed.
Theorem gmsh_file40_read g : gfile40_ok g -> (forall ks, gf_links g = Some ks -> periodic_law p good (map glink_read40 ks)) ->
  exists names, (forall k, dget k names = dget k (gf_names g)) /\
    read40 p (gmsh_file40 p g) = if groups_agree g then Ok (file_mesh40 g names) else Err ValueError.
Proof.
  intros W K. destruct (gmsh_file40_tail g [] [] [] W K) as (names & H1 & H2); try (now constructor).
  - intros. apply (leads40_nil p good holds Hp).
  - exists names. split; [exact H1|]. rewrite app_nil_r in H2. exact H2.
Qed.
End File.

Lemma file_vertices40 {F} (g : gfile F) b r : gfile40_ok g -> In b (gf_elements g) -> In r (gl_rows b) ->
  exists ns, gmsh_to_meshio_order (gl_type b) (snd r) = Ok ns /\
    Forall2 (fun i n => exists x, (0 <= i)%Z /\ nth_error (file_points g) (Z.to_nat i) = Some x /\ In (n, x) (flat_map gn_nodes (gf_nodes g)))
      (snd (element_cell (gnode_tags (gf_nodes g)) (Element (gl_type b) (fst r) [] (snd r)))) ns.
Proof.
  intros W Hb Hr. destruct (fo4_elements _ W) as (_ & Hok & _). rewrite Forall_forall in Hok. destruct (Hok b Hb) as (_ & _ & _ & _ & _ & R4 & _).
  rewrite Forall_forall in R4. destruct (R4 r Hr) as (_ & Hn & Ht).
  destruct (gmsh_order_total _ _ _ Hn eq_refl) as (ns & E1 & _ & E2). exists ns. split; [exact E2|].
  cbn [element_cell snd e_type e_nodes]. rewrite E1.
  assert (H : Forall (fun n => In n (gnode_tags (gf_nodes g))) ns).
  { apply Forall_forall. intros n Hi. rewrite Forall_forall in Ht. apply Ht. eapply permute_In; eauto. }
  clear - H. induction H as [|n ns Hn H IH]; cbn [map]; constructor; auto. rewrite Nat2Z.id.
  pose proof (position_nth n _ Hn) as Q.
  assert (L : position n (gnode_tags (gf_nodes g)) < length (file_points g)) by (rewrite file_points_length; apply nth_error_Some; congruence).
  apply nth_error_Some in L. destruct (nth_error (file_points g) (position n (gnode_tags (gf_nodes g)))) as [x|] eqn:E; [|congruence].
  exists x. split; [lia|]. split; [reflexivity|]. now apply (file_tags_points g (position n (gnode_tags (gf_nodes g)))).
Qed.
