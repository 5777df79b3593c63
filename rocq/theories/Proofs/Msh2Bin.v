(** Reading of binary MSH 2.2 files of Gmsh (C84). *)
From Coq Require Import ZArith NArith List String Ascii Bool Lia ZifyBool ZifyNat ZifyN.
From Verif.Lib Require Import Base Facts Facts2 Text TextFacts Lines LinesFacts Runs Perm Bytes BytesFacts File.
From Verif.Model Require Import Core Gmsh Gmsh22 Port Gmsh22Bin.
From Verif.Spec Require Import Core Blocks Gmsh Gmsh22 Msh41 Msh2File Msh2Bin Msh2Data.
From Verif.Proofs Require Import Core CoreMisc Blocks VtuPoly Gmsh Gmsh22 Gmsh22File Port Gmsh22Bin Msh2File.
Import ListNotations.
Local Open Scope list_scope.

(** ** Groups of elements *)
Definition group_type (g : list element) : string := match g with e :: _ => e_type e | [] => EmptyString end.
Definition group_ntags (g : list element) : nat := match g with e :: _ => length (e_tags e) | [] => 0 end.
Definition group_chunk (g : list element) : chunk := Chunk (group_type g) (group_ntags g) (map e_nodes g) (map e_tags g).
Definition group_ok (g : list element) : Prop :=
  g <> [] /\ exists t n, Forall (fun e => e_type e = t /\ length (e_tags e) = n) g.

Lemma group_same g : group_ok g -> Forall (fun e => e_type e = group_type g /\ length (e_tags e) = group_ntags g) g.
Proof.
  intros (Hne & t & n & H). destruct g as [|e g]; [congruence|]. inversion H as [|? ? [<- <-] H']; subst. exact H.
Qed.

Definition element_fits (tags : list Z) (e : element) : Prop :=
  element_ok tags e /\ Forall int32 (e_tags e) /\ int32 (e_id e) /\ (Z.of_nat (length (e_tags e)) < 2 ^ 31)%Z.

Lemma row_range tags e : Forall int32 tags -> element_fits tags e -> Forall (in_range CInt) (element_row e).
Proof.
  intros Ht ((_ & _ & Hn) & Hg & Hi & _). unfold element_row. constructor; [exact Hi|]. apply Forall_app. split; [exact Hg|].
  eapply Forall_impl; [|exact Hn]. intros z Hz. rewrite Forall_forall in Ht. exact (Ht z Hz).
Qed.
Lemma row_parts e n nt : length (e_nodes e) = n -> length (e_tags e) = nt ->
  length (element_row e) = 1 + nt + n /\ last_n n (element_row e) = e_nodes e /\ slice 1 (1 + nt) (element_row e) = e_tags e.
Proof.
  intros <- <-. unfold element_row. split; [|split].
  - cbn [length]. rewrite app_length. lia.
  - unfold last_n. cbn [length]. rewrite app_length.
    replace (S (length (e_tags e) + length (e_nodes e)) - length (e_nodes e)) with (S (length (e_tags e))) by lia.
    cbn [skipn]. rewrite skipn_app, skipn_all, Nat.sub_diag. reflexivity.
  - unfold slice. cbn [skipn]. replace (1 + length (e_tags e) - 1) with (length (e_tags e)) by lia.
    rewrite firstn_app, firstn_all, Nat.sub_diag. cbn [firstn]. apply app_nil_r.
Qed.

Lemma read_groups tags gs : Forall int32 tags -> forall fuel rest, length gs <= fuel -> Forall group_ok gs ->
  Forall (element_fits tags) (concat gs) -> (Z.of_nat (length (concat gs)) < 2 ^ 31)%Z ->
  read_chunks fuel (Z.of_nat (length (concat gs))) (ints (concat (map group_numbers gs)) ++ rest) = Ok (map group_chunk gs, rest).
Proof.
  intros Ht. induction gs as [|g gs IH]; intros fuel rest Hf Hg He Hl.
  - destruct fuel; reflexivity.
  - inversion Hg as [|? ? Hg1 Hg2]; subst. cbn [concat] in He, Hl. apply Forall_app in He. destruct He as [He1 He2].
    rewrite app_length in Hl. destruct fuel as [|fuel]; [cbn in Hf; lia|]. cbn [length] in Hf.
    pose proof (group_same g Hg1) as Hs. destruct Hg1 as [Hne _]. cbn [map concat]. rewrite ints_app, <- app_assoc, app_length.
    cbn [read_chunks].
    assert (Hpos : 0 < length g) by (destruct g; [congruence|cbn; lia]).
    replace (Z.of_nat (length g + length (concat gs)) <=? 0)%Z with false by lia.
    assert (En : group_numbers g = [type_code (group_type g); Z.of_nat (length g); Z.of_nat (group_ntags g)] ++ concat (map element_row g))
      by (destruct g; [congruence|reflexivity]).
    rewrite En, ints_app, <- app_assoc.
    assert (H0 : exists e, In e g /\ e_type e = group_type g /\ length (e_tags e) = group_ntags g)
      by (destruct g as [|e g']; [congruence|]; exists e; repeat split; now left).
    destruct H0 as (e0 & Hin0 & Et0 & En0).
    assert (Hf0 : element_fits tags e0) by (rewrite Forall_forall in He1; auto).
    destruct Hf0 as (((code & Hc) & Hn & _) & _ & _ & Hk). rewrite Et0 in Hc, Hn.
    assert (Tc : type_code (group_type g) = code) by (unfold type_code; now rewrite Hc).
    rewrite Tc. set (n := length (e_nodes e0)) in *. set (nt := group_ntags g) in *.
    assert (Hh : Forall (in_range CInt) [code; Z.of_nat (length g); Z.of_nat nt]).
    { constructor; [now apply (code_range (group_type g))|]. constructor; [cbn [in_range]; lia|]. constructor; [|constructor].
      cbn [in_range]. rewrite <- En0. lia. }
    pose proof (get_ints_ok _ (ints (concat (map element_row g)) ++ ints (concat (map group_numbers gs)) ++ rest) Hh) as E.
    cbn [length] in E. rewrite E. cbn [bind fst snd]. rewrite (codes_back _ _ Hc). cbn [of_option bind]. rewrite Hn. cbn [of_option bind].
    replace ((Z.of_nat (length g) <? 0)%Z || (Z.of_nat nt <? 0)%Z) with false by lia.
    set (w := (1 + Z.of_nat nt + Z.of_nat n)%Z).
    assert (Hp : forall e, In e g -> length (element_row e) = 1 + nt + n /\ last_n n (element_row e) = e_nodes e /\
                   slice 1 (1 + nt) (element_row e) = e_tags e).
    { intros e Hin. rewrite Forall_forall in Hs, He1. destruct (Hs e Hin) as [Et Ek]. destruct (He1 e Hin) as ((_ & Hm & _) & _).
      apply row_parts; auto. rewrite Et in Hm. congruence. }
    assert (Hw : Forall (fun r => length r = 1 + nt + n) (map element_row g)).
    { apply Forall_map, Forall_forall. intros e Hin. now apply Hp. }
    assert (Lc : length (concat (map element_row g)) = length g * (1 + nt + n)).
    { rewrite (concat_uniform_length (1 + nt + n)) by auto. rewrite map_length. lia. }
    assert (Lz : (Z.of_nat (length g) * w)%Z = Z.of_nat (length (concat (map element_row g)))).
    { rewrite Lc. unfold w. lia. }
    rewrite Lz. rewrite Z.min_l by (rewrite app_length, ints_length; lia). rewrite Nat2Z.id. rewrite get_ints_ok.
    2:{ apply Forall_concat, Forall_map. eapply Forall_impl; [|exact He1]. intros e. now apply row_range. }
    cbn [bind fst snd]. rewrite Z.eqb_refl. cbn [negb].
    replace (Z.of_nat (length g + length (concat gs)) - Z.of_nat (length g))%Z with (Z.of_nat (length (concat gs))) by lia.
    rewrite IH; [|lia|exact Hg2|exact He2|lia]. cbn [bind fst snd]. do 2 f_equal. f_equal. unfold group_chunk. fold nt.
    rewrite Nat2Z.id. replace (Z.to_nat w) with (1 + nt + n) by (unfold w; lia).
    rewrite chunks_concat by (auto; lia). rewrite !map_map. f_equal; apply map_ext_in; intros e Hin; now apply Hp.
Qed.

Lemma groups_cells gs : Forall group_ok gs ->
  flat_map (fun ch => map (pair (ch_type ch)) (ch_cells ch)) (map group_chunk gs) = map (fun e => (e_type e, e_nodes e)) (concat gs).
Proof.
  induction 1 as [|g gs Hg H IH]; [reflexivity|]. cbn [map flat_map concat]. rewrite IH, map_app. f_equal.
  cbn [group_chunk ch_type ch_cells]. rewrite map_map. apply map_ext_in. intros e Hin. pose proof (group_same g Hg) as Hs.
  rewrite Forall_forall in Hs. now destruct (Hs e Hin) as [-> _].
Qed.
Lemma groups_tags gs : Forall group_ok gs -> flat_map chunk_tags (map group_chunk gs) = tagged (concat gs).
Proof.
  unfold tagged. induction 1 as [|g gs Hg H IH]; [reflexivity|]. cbn [map flat_map concat]. rewrite IH, map_app. f_equal.
  unfold chunk_tags. cbn [group_chunk ch_type ch_tags]. rewrite map_map. apply map_ext_in. intros e Hin. pose proof (group_same g Hg) as Hs.
  rewrite Forall_forall in Hs. now destruct (Hs e Hin) as [-> _].
Qed.
Lemma groups_filled gs : Forall group_ok gs -> Forall (fun ch => ch_cells ch <> []) (map group_chunk gs).
Proof. intros H. apply Forall_map. eapply Forall_impl; [|exact H]. intros g [Hg _]. destruct g; [congruence|discriminate]. Qed.

Lemma groups_same_tags {fl : floats} (f : file22 fl) gs : Forall group_ok gs -> concat gs = f2_elements f ->
  same_tags (map group_chunk gs) = same_counts f.
Proof.
  intros Hg Ec. apply eq_iff_eq_true. unfold same_tags, same_counts. rewrite <- Ec. rewrite !forallb_forall.
  rewrite Forall_forall in Hg. split; intros H.
  - intros e He. apply forallb_forall. intros e' He'. apply in_concat in He, He'. destruct He as (g & Hin & He). destruct He' as (g' & Hin' & He').
    specialize (H (group_chunk g) (in_map _ _ _ Hin)). rewrite forallb_forall in H. specialize (H (group_chunk g') (in_map _ _ _ Hin')).
    cbn [group_chunk ch_type ch_ntags] in H.
    pose proof (group_same g (Hg g Hin)) as S1. pose proof (group_same g' (Hg g' Hin')) as S2. rewrite Forall_forall in S1, S2.
    destruct (S1 e He) as [-> ->]. destruct (S2 e' He') as [-> ->]. exact H.
  - intros ch Hch. apply forallb_forall. intros ch' Hch'. apply in_map_iff in Hch, Hch'.
    destruct Hch as (g & <- & Hin). destruct Hch' as (g' & <- & Hin'). cbn [group_chunk ch_type ch_ntags].
    destruct (Hg g Hin) as [N1 _]. destruct (Hg g' Hin') as [N2 _].
    destruct g as [|e g]; [congruence|]. destruct g' as [|e' g']; [congruence|]. cbn [group_type group_ntags].
    assert (I1 : In e (concat gs)) by (apply in_concat; exists (e :: g); split; [exact Hin|now left]).
    assert (I2 : In e' (concat gs)) by (apply in_concat; exists (e' :: g'); split; [exact Hin'|now left]).
    specialize (H e I1). rewrite forallb_forall in H. exact (H e' I2).
Qed.

Section File.
Context {fl : floats} (c8 : codec fl).
Hypothesis Hfl : floats_ok fl.
Hypothesis Hc : codec_ok c8.

(** ** Sections *)
Inductive bends : bytes -> rstate fl -> result (rstate fl) -> nat -> Prop :=
| bends_nil st : bends [] st (Ok st) 0
| bends_fail env body st e : word env = true -> Forall is_byte body -> read_section_bin c8 env body st = Err e ->
    bends (text_bytes [("$" ++ env)%string] ++ body) st (Err e) 0
| bends_cons env body rest st st' r n :
    word env = true -> Forall is_byte (body ++ rest) -> read_section_bin c8 env (body ++ rest) st = Ok (st', rest) ->
    bends rest st' r n -> bends (text_bytes [("$" ++ env)%string] ++ body ++ rest) st r (S n).
Lemma bends_read s st r n f : bends s st r n -> n < f -> read_sections_bin c8 f s st = r.
Proof.
  intros H. revert f. induction H as [|env body st e Hw Hb Hs|env body rest st st' r n Hw Hb Hs Hr IH]; intros f Hf.
  - destruct f; [lia|]. reflexivity.
  - destruct f as [|f]; [lia|]. cbn [read_sections_bin].
    rewrite (next_binary_ok next41 env) by (auto; now apply next41_ok). cbn [bind]. now rewrite Hs.
  - destruct f as [|f]; [lia|]. cbn [read_sections_bin].
    rewrite (next_binary_ok next41 env) by (auto; now apply next41_ok). cbn [bind]. rewrite Hs. cbn [bind fst snd]. apply IH. lia.
Qed.
Lemma bends_length s st r n : bends s st r n -> n <= length s.
Proof.
  induction 1; [cbn; lia|cbn; lia|]. rewrite !app_length. unfold text_bytes. cbn [map concat]. rewrite !app_length. cbn [length]. lia.
Qed.

Lemma record22_byte n : Forall is_byte (record22 c8 n).
Proof.
  unfold record22. apply Forall_app. split; [apply int_bytes_byte|]. apply Forall_concat_bytes, Forall_map, Forall_forall.
  intros; apply Hc.
Qed.
Lemma records_byte l : Forall is_byte (concat (map (record22 c8) l)).
Proof. apply Forall_concat_bytes, Forall_map, Forall_forall. intros; apply record22_byte. Qed.
Lemma record22_index n : int32 (fst n) -> int_of_bytes CInt (firstn 4 (record22 c8 n)) = fst n.
Proof.
  intros H. unfold record22. rewrite firstn_app. pose proof (int_bytes_length CInt (fst n)) as L. cbn [int_width] in L.
  rewrite L, Nat.sub_diag. rewrite firstn_all2 by lia. cbn [firstn]. rewrite app_nil_r. now apply int_roundtrip.
Qed.
Lemma record22_values n : map (dec c8) (chunks 8 (skipn 4 (record22 c8 n))) = snd n.
Proof.
  unfold record22. rewrite skipn_app. pose proof (int_bytes_length CInt (fst n)) as L. cbn [int_width] in L.
  rewrite L, Nat.sub_diag. rewrite skipn_all2 by lia. cbn [skipn app].
  rewrite chunks_concat; [|lia|apply Forall_map, Forall_forall; intros; apply Hc].
  rewrite map_map. apply map_id_in. intros; apply Hc.
Qed.
Lemma records_taken nc l rest : Forall (fun n : Z * list fl => length (snd n) = nc) l ->
  take_items (4 + 8 * nc) (length l) (concat (map (record22 c8) l) ++ rest) = (map (record22 c8) l, rest).
Proof.
  intros H.
  assert (Hw : Forall (fun x => length x = 4 + 8 * nc) (map (record22 c8) l)).
  { apply Forall_map. eapply Forall_impl; [|exact H]. intros n Hn. unfold record22. rewrite app_length, int_bytes_length.
    rewrite (concat_uniform_length 8) by (apply Forall_map, Forall_forall; intros; apply Hc). rewrite map_length, Hn. reflexivity. }
  rewrite <- (take_items_ok (4 + 8 * nc) _ rest) with (2 := Hw) by lia. now rewrite map_length.
Qed.

Definition ones (n : nat) : list Z := map Z.of_nat (seq 1 n).
Lemma ones_node_tags n : ones n = map (fun k => Z.of_nat (k + 1)) (seq 0 n).
Proof. unfold ones. rewrite <- seq_shift, map_map. apply map_ext. intros k. f_equal. lia. Qed.
Lemma index_exact (l : list Z) :
  forallb (fun kz => Z.eqb (snd kz) (Z.of_nat (fst kz + 1))) (enumerate l) = true <-> l = ones (length l).
Proof.
  split; intros H.
  - unfold ones, enumerate in *.
    assert (G : forall l s, forallb (fun kz => Z.eqb (snd kz) (Z.of_nat (fst kz + 1))) (combine (seq s (length l)) l) = true ->
                l = map Z.of_nat (seq (S s) (length l))).
    { clear. induction l as [|z l IH]; intros s H; [reflexivity|]. cbn [length seq combine forallb fst snd] in H.
      apply andb_true_iff in H. destruct H as [H1 H2]. apply Z.eqb_eq in H1. cbn [length seq map]. f_equal; [lia|]. now apply IH. }
    now apply G.
  - rewrite H. rewrite ones_node_tags. apply index_check.
Qed.

Lemma nodes_read (l : list (Z * list fl)) rest : Forall (fun n => int32 (fst n) /\ length (snd n) = 3) l -> Forall is_byte rest ->
  read_nodes_bin c8 (text_bytes [str_of_nat (length l)] ++ concat (map (record22 c8) l) ++ closing_binary "Nodes" ++ rest) =
  if list_eq_dec Z.eq_dec (map fst l) (map Z.of_nat (seq 1 (length l))) then Ok (map fst l, map snd l, rest) else Err ReadError.
Proof.
  intros Hl Hr. unfold read_nodes_bin. rewrite count_line_ok.
  2: { apply Forall_app. split; [apply records_byte|]. apply Forall_app. split; [apply closing_byte|exact Hr]. }
  cbn [bind fst snd]. rewrite Nat2Z.id. change 28 with (4 + 8 * 3).
  rewrite records_taken by (eapply Forall_impl; [|exact Hl]; cbn; tauto). cbn [fst snd].
  assert (I : map (fun b => int_of_bytes CInt (firstn 4 b)) (map (record22 c8) l) = map fst l).
  { rewrite map_map. apply map_ext_in. intros n Hin. apply record22_index. rewrite Forall_forall in Hl. now apply Hl. }
  rewrite I. rewrite map_length, Nat.eqb_refl, andb_true_r.
  pose proof (index_exact (map fst l)) as X. rewrite map_length in X. unfold ones in X.
  destruct (list_eq_dec Z.eq_dec (map fst l) (map Z.of_nat (seq 1 (length l)))) as [E|E].
  - rewrite (proj2 X E). rewrite map_map, (map_ext _ snd) by (intros; apply record22_values).
    now rewrite skip_end_ok.
  - destruct (forallb _ _); [exfalso; now apply E, X|reflexivity].
Qed.

Lemma elements_read (f : file22 fl) gs rest : file22_ok f -> groups_ok f gs -> Forall is_byte rest ->
  read_elements_bin (file22_tags f)
    (text_bytes [str_of_nat (length (f2_elements f))] ++ ints (concat (map group_numbers gs)) ++ closing_binary "Elements" ++ rest) =
  if same_counts f
  then Ok (file22_blocks f, tag_column 0 (group_tags (tagged (f2_elements f))), tag_column 1 (group_tags (tagged (f2_elements f))), rest)
  else Err ValueError.
Proof.
  intros [_ [k2 k2'] k3 k4 _ _ _] [g1 g2 g3 g4] Hr. unfold read_elements_bin. rewrite count_line_ok.
  2: { apply Forall_app. split; [apply ints_byte|]. apply Forall_app. split; [apply closing_byte|exact Hr]. }
  cbn [bind fst snd]. rewrite <- g1. rewrite (read_groups (file22_tags f)).
  - cbn [bind fst snd]. rewrite (groups_same_tags f gs g2 g1). destruct (same_counts f); [|reflexivity]. cbn [negb].
    rewrite join_chunks_ok by now apply groups_filled. rewrite groups_cells, groups_tags by auto.
    destruct (els_fixed (file22_tags f) (concat gs)) as (table & Ht & Hm).
    + unfold file22_tags. destruct (f2_nodes f); [congruence|discriminate].
    + exact k2'.
    + unfold file22_tags. apply Forall_map. eapply Forall_impl; [|exact k3]. cbn. lia.
    + rewrite g1. eapply Forall_impl; [|exact k4]. cbn. tauto.
    + rewrite Ht. cbn [bind]. rewrite Hm. cbn [bind]. rewrite skip_end_ok by auto. unfold file22_blocks. rewrite <- g1. reflexivity.
  - unfold file22_tags. apply Forall_map. eapply Forall_impl; [|exact k3]. unfold int32. cbn. lia.
  - assert (G : forall gs, Forall group_ok gs -> length gs <= length (ints (concat (map group_numbers gs)))).
    { clear. induction 1 as [|g gs [Hg _] H IH]; [cbn; lia|]. cbn [map concat length]. rewrite ints_app, app_length, ints_length.
      destruct g; [congruence|]. cbn [group_numbers app length]. lia. }
    specialize (G gs g2). rewrite app_length. lia.
  - exact g2.
  - rewrite g1. apply Forall_forall. intros e He. rewrite Forall_forall in k4, g3. destruct (k4 e He) as (A & B & _).
    destruct (g3 e He) as (C & D). repeat split; auto; apply A || apply C.
  - now rewrite g1.
Qed.

Lemma data_section (d : node_data fl) dd rest : plain_name (nd_name d) -> one_line (ffmt (nd_time d)) ->
  map fst (nd_rows d) = ones (length (nd_rows d)) -> Forall (fun r => int32 (fst r)) (nd_rows d) ->
  (exists nc, In nc [1; 3; 9] /\ Forall (fun r => length (snd r) = nc) (nd_rows d)) -> Forall is_byte rest ->
  exists u, data_bytes c8 d = text_bytes [("$" ++ "NodeData")%string] ++ u /\ Forall is_byte u /\
    get_data_binary c8 "NodeData" dd (u ++ rest) = Ok (dset (nd_name d) (map snd (nd_rows d)) dd, rest).
Proof.
  intros (Hn & Hn') Ho Hi H32 (nc & Hnc & Hr) Hb.
  assert (Hw : Forall (fun r => length (snd r) = width (nd_rows d)) (nd_rows d)).
  { destruct (nd_rows d) as [|r rows]; [constructor|]. inversion Hr; subst. exact Hr. }
  set (hl := ["1"; quoted (nd_name d); "1"; ffmt (nd_time d); "3"; str_of_Z (nd_step d);
              str_of_nat (width (nd_rows d)); str_of_nat (length (nd_rows d))]%string).
  exists (text_bytes hl ++ concat (map (record22 c8) (nd_rows d)) ++ closing_binary "NodeData"). split; [|split].
  - unfold data_bytes. fold hl. change ("$NodeData"%string :: hl) with (("$" ++ "NodeData")%string :: hl).
    now rewrite text_bytes_cons, <- app_assoc.
  - apply Forall_app. split; [apply text_bytes_byte|]. apply Forall_app. split; [apply records_byte|apply closing_byte].
  - unfold get_data_binary. rewrite <- !app_assoc.
    rewrite (by_lines_ok read_data_header) with (x := (nd_name d, Z.of_nat (width (nd_rows d)), Z.of_nat (length (nd_rows d)))).
    + cbn [bind fst snd]. rewrite !Nat2Z.id. rewrite records_taken by exact Hw. cbn [fst snd].
      assert (I : map (fun b => int_of_bytes CInt (firstn 4 b)) (map (record22 c8) (nd_rows d)) = map fst (nd_rows d)).
      { rewrite map_map. apply map_ext_in. intros n Hin. apply record22_index. rewrite Forall_forall in H32. now apply H32. }
      rewrite I. rewrite map_length, Nat.eqb_refl, andb_true_r.
      rewrite (proj2 (index_exact (map fst (nd_rows d)))) by now rewrite map_length.
      rewrite map_map, (map_ext _ snd) by (intros; apply record22_values). now rewrite skip_end_ok.
    + unfold hl. repeat (constructor; [first [reflexivity | apply one_line_nat | apply one_line_Z | exact Ho | now apply one_line_quoted]|]). constructor.
    + apply Forall_app. split; [apply records_byte|]. apply Forall_app. split; [apply closing_byte|exact Hb].
    + unfold hl. cbn [app]. unfold read_data_header. cbn [line1 hd tl app].
      change (int_line "1") with (@Ok Z 1%Z). cbn [bind]. change (Z.to_nat 1) with 1.
      cbn [read_lines line1 hd tl bind fst snd].
      change (int_line "1") with (@Ok Z 1%Z). cbn [bind]. change (Z.to_nat 1) with 1.
      cbn [read_lines line1 hd tl bind fst snd].
      change (int_line "3") with (@Ok Z 3%Z). cbn [bind]. change (Z.to_nat 3) with 3.
      cbn [read_lines line1 hd tl bind fst snd].
      assert (Es : int_line (str_of_Z (nd_step d)) = Ok (nd_step d)).
      { unfold int_line. rewrite strip_word by apply word_str_of_Z. now rewrite parse_Z_str_of_Z. }
      rewrite Es. cbn [bind]. rewrite !int_line_nat. cbn [bind fst snd nth_error of_option hd_error].
      rewrite unquote_quoted by auto. reflexivity.
Qed.
Lemma data_bytes_byte d : Forall is_byte (data_bytes c8 d).
Proof. unfold data_bytes. apply Forall_app. split; [apply text_bytes_byte|]. apply Forall_app. split; [apply records_byte|apply closing_byte]. Qed.
Lemma all_data_byte ds : Forall is_byte (concat (map (data_bytes c8) ds)).
Proof. apply Forall_concat_bytes, Forall_map, Forall_forall. intros; apply data_bytes_byte. Qed.

Lemma data_bends ds rest Res : Forall is_byte rest -> forall st, Forall plain_name (map nd_name ds) ->
  Forall (fun d => map fst (nd_rows d) = ones (length (nd_rows d)) /\ Forall (fun r => int32 (fst r)) (nd_rows d) /\
     exists nc, In nc [1; 3; 9] /\ Forall (fun r => length (snd r) = nc) (nd_rows d)) ds ->
  (exists n, bends rest (RState (s_tags st) (s_points st) (s_cells st) (s_phys st) (s_geom st) (s_names st) (s_periodic st)
       (dupdate (s_pdata st) (map (fun d => (nd_name d, map snd (nd_rows d))) ds)) (s_craw st)) Res n) ->
  exists n, bends (concat (map (data_bytes c8) ds) ++ rest) st Res n.
Proof.
  intros Hrest. induction ds as [|d ds IH]; intros st Hk Hr HR.
  - destruct HR as (n & HR). exists n. destruct st. exact HR.
  - cbn [map] in Hk. inversion Hk as [|? ? Hk1 Hk2]; subst. inversion Hr as [|? ? (Hr1 & Hr1' & Hr1'') Hr2]; subst.
    destruct (IH (RState (s_tags st) (s_points st) (s_cells st) (s_phys st) (s_geom st) (s_names st) (s_periodic st)
               (dset (nd_name d) (map snd (nd_rows d)) (s_pdata st)) (s_craw st)) Hk2 Hr2) as (n & Hn).
    { exact HR. }
    assert (Hall : Forall is_byte (concat (map (data_bytes c8) ds) ++ rest)) by (apply Forall_app; split; [apply all_data_byte|exact Hrest]).
    exists (S n). cbn [map concat]. rewrite <- app_assoc.
    destruct (data_section d (s_pdata st) (concat (map (data_bytes c8) ds) ++ rest) Hk1 (one_line_word _ (proj1 (Hfl (nd_time d)))) Hr1 Hr1' Hr1''
               Hall) as (u & E1 & E2 & E3).
    rewrite E1, <- app_assoc. eapply (bends_cons "NodeData" u); [reflexivity| | |exact Hn].
    + apply Forall_app. split; [exact E2|exact Hall].
    + destruct st as [s1 s2 s3 s4 s5 s6 s7 s8 s9]. cbn -[get_data_binary app concat dset data_bytes] in E3 |- *. rewrite E3. reflexivity.
Qed.

Lemma file22_bin_ends (f : file22 fl) gs Tl res : file22_ok f -> groups_ok f gs -> Forall is_byte Tl ->
  (forall a b c d e g h i, exists n, bends Tl (RState a b c d e g h i []) (do cr <- res; Ok (RState a b c d e g h i cr)) n) ->
  (forall cr, res = Ok cr -> Forall (fun kv => length (snd kv) = length (f2_elements f)) cr) ->
  exists names, (forall k, dget k names = dget k (f2_names f)) /\
    read22_file c8 (file22_bytes c8 f gs ++ Tl) =
      if consecutive_dec f then
        if same_counts f then
          do cr <- res;
          if tags_agree 0 f && tags_agree 1 f && match cr with [] => true | _ => two_each (file22_blocks f) end
          then Ok (with_cells f names cr) else Err ValueError
        else Err ValueError
      else Err ReadError.
Proof.
  intros W G HTl Hrun Hcr. pose proof W as [[k1 k1'] [k2 k2'] k3 k4 k5 [k6 k6'] k7].
  set (ps := option_map (map shift_link) (f2_links f)).
  set (pd := map (fun d => (nd_name d, map snd (nd_rows d))) (f2_data f)).
  set (td := group_tags (tagged (f2_elements f))).
  set (fin := fun nm => do cr <- res; Ok (RState (file22_tags f) (map snd (f2_nodes f)) (file22_blocks f) (tag_column 0 td) (tag_column 1 td) nm ps pd cr)).
  assert (H32 : Forall (fun n => int32 (fst n) /\ length (snd n) = 3) (f2_nodes f)).
  { eapply Forall_impl; [|exact k3]. unfold int32. cbn. lia. }
  set (D := concat (map (data_bytes c8) (f2_data f)) ++ Tl).
  assert (HD : Forall is_byte D) by (apply Forall_app; split; [apply all_data_byte|exact HTl]).
  set (per := match f2_links f with
     | Some ps => text_bytes (["$Periodic"; str_of_nat (length ps)]%string ++ flat_map link_lines ps ++ ["$EndPeriodic"%string])
     | None => []
     end).
  assert (HP : Forall is_byte (per ++ D)).
  { apply Forall_app. split; [|exact HD]. unfold per. destruct (f2_links f); [apply text_bytes_byte|constructor]. }
  set (EL := (text_bytes ["$Elements"%string; str_of_nat (length (f2_elements f))]
      ++ concat (map (int_bytes CInt) (concat (map group_numbers gs))) ++ closing_binary "Elements") ++ per ++ D).
  assert (HE : Forall is_byte EL).
  { apply Forall_app. split; [|exact HP]. apply Forall_app. split; [apply text_bytes_byte|]. apply Forall_app. split; [apply ints_byte|apply closing_byte]. }
  set (ND := (text_bytes ["$Nodes"%string; str_of_nat (length (f2_nodes f))] ++ concat (map (record22 c8) (f2_nodes f)) ++ closing_binary "Nodes") ++ EL).
  assert (HN : Forall is_byte ND).
  { apply Forall_app. split; [|exact HE]. apply Forall_app. split; [apply text_bytes_byte|]. apply Forall_app. split; [apply records_byte|apply closing_byte]. }
  set (out := fun nm => if consecutive_dec f then if same_counts f then fin nm else Err ValueError else Err ReadError).
  assert (T : forall nm, exists n, bends ND (RState [] [] [] [] [] nm None [] []) (out nm) n).
  { intros nm.
    assert (R0 : forall rest, Forall is_byte rest -> read_section_bin c8 "Nodes" ((text_bytes [str_of_nat (length (f2_nodes f))] ++ concat (map (record22 c8) (f2_nodes f)) ++ closing_binary "Nodes") ++ rest)
        (RState [] [] [] [] [] nm None [] []) =
        if consecutive_dec f then Ok (RState (file22_tags f) (map snd (f2_nodes f)) [] [] [] nm None [] [], rest) else Err ReadError).
    { intros rest Hr. unfold read_section_bin. cbn [String.eqb Ascii.eqb Bool.eqb].
      replace ((text_bytes [str_of_nat (length (f2_nodes f))] ++ concat (map (record22 c8) (f2_nodes f)) ++ closing_binary "Nodes") ++ rest)
        with (text_bytes [str_of_nat (length (f2_nodes f))] ++ concat (map (record22 c8) (f2_nodes f)) ++ closing_binary "Nodes" ++ rest) by now rewrite <- !app_assoc.
      rewrite nodes_read by auto. unfold consecutive_dec, consecutive.
      fold (file22_tags f). destruct (list_eq_dec Z.eq_dec (file22_tags f) _); reflexivity. }
    assert (EN : ND = text_bytes [("$" ++ "Nodes")%string] ++ (text_bytes [str_of_nat (length (f2_nodes f))] ++ concat (map (record22 c8) (f2_nodes f)) ++ closing_binary "Nodes") ++ EL).
    { unfold ND. change "$Nodes"%string with ("$" ++ "Nodes")%string. rewrite text_bytes_cons, <- !app_assoc. reflexivity. }
    assert (HB : Forall is_byte ((text_bytes [str_of_nat (length (f2_nodes f))] ++ concat (map (record22 c8) (f2_nodes f)) ++ closing_binary "Nodes") ++ EL)).
    { rewrite EN in HN. apply Forall_app in HN. apply HN. }
    rewrite EN. unfold out. destruct (consecutive_dec f) as [C|C].
    2:{ exists 0. apply (bends_fail "Nodes"); [reflexivity|exact HB|]. rewrite R0 by exact HE. now destruct (consecutive_dec f). }
    assert (R0' := R0 EL HE). destruct (consecutive_dec f) as [_|]; [|contradiction].
    assert (R1 : forall rest, Forall is_byte rest -> read_section_bin c8 "Elements" ((text_bytes [str_of_nat (length (f2_elements f))] ++ ints (concat (map group_numbers gs)) ++ closing_binary "Elements") ++ rest)
        (RState (file22_tags f) (map snd (f2_nodes f)) [] [] [] nm None [] []) =
        if same_counts f then Ok (RState (file22_tags f) (map snd (f2_nodes f)) (file22_blocks f) (tag_column 0 td) (tag_column 1 td) nm None [] [], rest) else Err ValueError).
    { intros rest Hr. unfold read_section_bin. cbn [String.eqb Ascii.eqb Bool.eqb].
      replace ((text_bytes [str_of_nat (length (f2_elements f))] ++ ints (concat (map group_numbers gs)) ++ closing_binary "Elements") ++ rest)
        with (text_bytes [str_of_nat (length (f2_elements f))] ++ ints (concat (map group_numbers gs)) ++ closing_binary "Elements" ++ rest) by now rewrite <- !app_assoc.
      rewrite (elements_read f gs) by auto. destruct (same_counts f); reflexivity. }
    assert (EE : EL = text_bytes [("$" ++ "Elements")%string] ++ (text_bytes [str_of_nat (length (f2_elements f))] ++ ints (concat (map group_numbers gs)) ++ closing_binary "Elements") ++ per ++ D).
    { unfold EL. change "$Elements"%string with ("$" ++ "Elements")%string. rewrite text_bytes_cons, <- !app_assoc. reflexivity. }
    assert (HB1 : Forall is_byte ((text_bytes [str_of_nat (length (f2_elements f))] ++ ints (concat (map group_numbers gs)) ++ closing_binary "Elements") ++ per ++ D)).
    { rewrite EE in HE. apply Forall_app in HE. apply HE. }
    assert (P1 : exists n, bends EL (RState (file22_tags f) (map snd (f2_nodes f)) [] [] [] nm None [] []) (if same_counts f then fin nm else Err ValueError) n).
    { rewrite EE. specialize (R1 (per ++ D) HP). destruct (same_counts f).
      2:{ exists 0. apply (bends_fail "Elements"); [reflexivity|exact HB1|exact R1]. }
      assert (Hdata : Forall (fun d => map fst (nd_rows d) = ones (length (nd_rows d)) /\ Forall (fun r => int32 (fst r)) (nd_rows d) /\
         exists nc, In nc [1; 3; 9] /\ Forall (fun r => length (snd r) = nc) (nd_rows d)) (f2_data f)).
      { eapply Forall_impl; [|exact k7]. intros d (Et & Hnc). assert (L : length (nd_rows d) = length (f2_nodes f)).
        { rewrite <- (map_length fst (nd_rows d)), Et. unfold file22_tags. apply map_length. }
        split; [|split; [|exact Hnc]].
        - rewrite Et, L. exact C.
        - apply Forall_forall. intros r Hin. apply (in_map fst) in Hin. rewrite Et in Hin. unfold file22_tags in Hin.
          apply in_map_iff in Hin. destruct Hin as (x & <- & Hx). rewrite Forall_forall in H32. now apply H32. }
      destruct (data_bends (f2_data f) Tl (fin nm) HTl (RState (file22_tags f) (map snd (f2_nodes f)) (file22_blocks f) (tag_column 0 td) (tag_column 1 td) nm ps [] [])
                  k6' Hdata) as (n3 & R3).
      { cbn [s_tags s_points s_cells s_phys s_geom s_names s_periodic s_pdata s_craw]. fold pd.
        rewrite dupdate_nil by (unfold pd, dkeys; rewrite map_map; exact k6). apply Hrun. }
      fold D in R3.
      assert (P2 : exists n, bends (per ++ D) (RState (file22_tags f) (map snd (f2_nodes f)) (file22_blocks f) (tag_column 0 td) (tag_column 1 td) nm None [] []) (fin nm) n).
      { unfold per, fin, ps in *. destruct (f2_links f) as [l|] eqn:El; [|exists n3; exact R3].
        exists (S n3).
        assert (Ew : ["$Periodic"; str_of_nat (length l)]%string ++ flat_map link_lines l ++ ["$EndPeriodic"%string]
                     = write_periodic (map shift_link l)).
        { unfold write_periodic. now rewrite links_lines, map_length. }
        rewrite Ew. pose proof (periodic_one_line Hfl (map shift_link l)) as Ho.
        change (write_periodic (map shift_link l)) with (("$" ++ "Periodic")%string :: tl (write_periodic (map shift_link l))).
        rewrite text_bytes_cons, <- app_assoc. eapply (bends_cons "Periodic"); [reflexivity| | |exact R3].
        - apply Forall_app. split; [apply text_bytes_byte|exact HD].
        - unfold read_section_bin. cbn [String.eqb Ascii.eqb Bool.eqb].
          rewrite (by_lines_ok read_periodic _ _ (map shift_link l)); [reflexivity| |exact HD|].
          + inversion Ho; assumption.
          + apply (read_periodic_ok Hfl). apply Forall_map. eapply Forall_impl; [|exact (k5 _ eq_refl)]. intros p Hp. exact Hp. }
      destruct P2 as (n2 & R2). exists (S n2). eapply (bends_cons "Elements"); [reflexivity|exact HB1|exact R1|exact R2]. }
    destruct P1 as (n1 & P1). exists (S n1). eapply (bends_cons "Nodes"); [reflexivity|exact HB|exact R0'|exact P1]. }
  assert (B : exists names n, (forall k, dget k names = dget k (f2_names f)) /\
     bends (text_bytes (write_physical_names (f2_names f)) ++ ND) rstate0 (out names) n).
  { destruct (f2_names f) as [|e es] eqn:En.
    - destruct (T []) as (n & R). exists [], n. split; auto.
    - destruct (ok_names _ _ _ (binary_port_ok c8 Hc) (e :: es) ND) as (u & fd & E1 & E2 & E3 & E4 & _); auto; [discriminate|].
      cbn [binary_port text opening get_names] in E1, E2. destruct (T fd) as (n & R). exists fd, (S n). split; auto.
      assert (E2' : by_lines (read_physical_names []) (@app N u ND) = Ok (fd, ND)) by exact E2.
      rewrite E1, <- app_assoc. eapply (bends_cons "PhysicalNames" u); [reflexivity|exact E3| |exact R].
      unfold read_section_bin, rstate0. cbn [String.eqb Ascii.eqb Bool.eqb]. rewrite E2'. reflexivity. }
  destruct B as (names & n & Hnames & R). exists names. split; [exact Hnames|].
  assert (Ef : file22_bytes c8 f gs ++ Tl = header_binary "2.2" ++ text_bytes (write_physical_names (f2_names f)) ++ ND).
  { unfold file22_bytes, ND, EL, per, D. now rewrite <- !app_assoc. }
  assert (Hall : Forall is_byte (text_bytes (write_physical_names (f2_names f)) ++ ND)).
  { apply Forall_app. split; [apply text_bytes_byte|exact HN]. }
  rewrite Ef. unfold read22_file. pose proof (ok_header _ _ _ (binary_port_ok c8 Hc) "2.2"%string _ eq_refl Hall) as Eh.
  assert (Eh' : get_header_binary (@app N (header_binary "2.2") (text_bytes (write_physical_names (f2_names f)) ++ ND)) =
    Ok ("2.2"%string, text_bytes (write_physical_names (f2_names f)) ++ ND)) by exact Eh.
  rewrite Eh'. cbn [bind fst snd]. rewrite String.eqb_refl. unfold read22_bin. pose proof (bends_length _ _ _ _ R) as L.
  rewrite (bends_read _ _ _ _ (S (length (text_bytes (write_physical_names (f2_names f)) ++ ND))) R) by lia.
  unfold out. destruct (consecutive_dec f); [|reflexivity]. destruct (same_counts f); [|reflexivity]. unfold fin.
  destruct res as [cr|e]; [|reflexivity]. cbn [bind]. apply (file22_finish_data f cr names W). now apply Hcr.
Qed.
Lemma file22_bin_tail (f : file22 fl) gs Tl cr : file22_ok f -> groups_ok f gs -> Forall is_byte Tl ->
  (forall a b c d e g h i, exists n, bends Tl (RState a b c d e g h i []) (Ok (RState a b c d e g h i cr)) n) ->
  Forall (fun kv => length (snd kv) = length (f2_elements f)) cr ->
  exists names, (forall k, dget k names = dget k (f2_names f)) /\
    read22_file c8 (file22_bytes c8 f gs ++ Tl) =
      if consecutive_dec f then
        if same_counts f && (tags_agree 0 f && tags_agree 1 f && match cr with [] => true | _ => two_each (file22_blocks f) end)
        then Ok (with_cells f names cr) else Err ValueError
      else Err ReadError.
Proof.
  intros W G HTl Hrun Hcr. destruct (file22_bin_ends f gs Tl (Ok cr) W G HTl Hrun) as (names & H1 & H2).
  - intros cr' E. injection E as <-. exact Hcr.
  - exists names. split; [exact H1|]. rewrite H2. cbn [bind]. now destruct (consecutive_dec f), (same_counts f).
Qed.
Lemma file22_read_bin (f : file22 fl) gs : file22_ok f -> groups_ok f gs ->
  exists names, (forall k, dget k names = dget k (f2_names f)) /\
    read22_file c8 (file22_bytes c8 f gs) =
      if consecutive_dec f then
        if same_counts f && (tags_agree 0 f && tags_agree 1 f) then Ok (file22_mesh f names) else Err ValueError
      else Err ReadError.
Proof.
  intros W G. destruct (file22_bin_tail f gs [] [] W G (Forall_nil _)) as (names & H1 & H2).
  - intros. exists 0. constructor.
  - constructor.
  - exists names. split; [exact H1|]. rewrite app_nil_r, andb_true_r in H2. exact H2.
Qed.
End File.
