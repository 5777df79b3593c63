(** Proofs about Model/Stl.v. *)
From Verif.Lib Require Import Base Facts Facts2 Text TextFacts Lines LinesFacts Runs Bytes BytesFacts File Unique.
From Verif.Model Require Import Core Stl.
From Verif.Spec Require Import Core Surface.
From Verif.Proofs Require Import Core.
From Coq Require Import NArith ZifyBool ZifyN ZifyNat.

Lemma Forall2_concat_split {A B} (R : A -> B -> Prop) (ts : list (list B)) : forall l,
  Forall2 R l (concat ts) -> exists ls, l = concat ls /\ Forall2 (Forall2 R) ls ts.
Proof.
  induction ts as [|t ts IH]; intros l H; cbn in *.
  - inversion H; subst. exists []. split; [reflexivity|constructor].
  - apply Forall2_app_inv_r in H. destruct H as (l1 & l2 & H1 & H2 & ->).
    destruct (IH l2 H2) as (ls & -> & H3). exists (l1 :: ls). split; [reflexivity|]. now constructor.
Qed.
Lemma Forall2_chunks {A B} (R : A -> B -> Prop) k (ts : list (list B)) l : 0 < k ->
  Forall (fun t => length t = k) ts -> Forall2 R l (concat ts) -> Forall2 (Forall2 R) (chunks k l) ts.
Proof.
  intros Hk Ht H. destruct (Forall2_concat_split R ts l H) as (ls & -> & H2). rewrite chunks_concat; auto.
  clear H. induction H2 as [|x t ls ts Hx H2 IH]; constructor; inversion Ht; subst; auto.
  now rewrite (Forall2_length _ _ _ Hx).
Qed.

Section Facets.
Context {P : Type} (le : P -> P -> bool).
Hypothesis order : total_order le.

Lemma eqv_same a b : eqv le a b = true <-> same_point le a b.
Proof. unfold eqv, same_point. apply andb_true_iff. Qed.

Lemma dedup_shows (tris : list (list P)) : Forall (fun t => length t = 3) tris -> tris <> [] ->
  shows le (dedup_points le (concat tris))
    [Block "triangle" (chunks 3 (map Z.of_nat (dedup_index le (concat tris))))] tris.
Proof.
  destruct order as [total trans]. intros H3 Hne. set (pts := concat tris). repeat split.
  - pose proof (dedup_points_distinct le total trans pts) as H. induction H as [|a l Ha H IH]; constructor; auto.
    eapply Forall_impl; [|exact Ha]. intros b Hb. rewrite <- eqv_same. congruence.
  - apply dedup_points_incl.
  - destruct tris as [|l tris]; [congruence|]. eexists. split; [reflexivity|].
    destruct (dedup_index_ok le total trans pts) as [Hl Hi].
    assert (H : Forall2 (fun i p => exists q, corners (dedup_points le pts) [i] = Some [q] /\ same_point le q p)
              (map Z.of_nat (dedup_index le pts)) pts).
    { apply Forall2_nth_intro; [rewrite map_length; exact Hl|]. intros i a p Ha Hp.
      destruct (Hi i p Hp) as (r & q & R1 & R2 & R3). rewrite nth_error_map, R1 in Ha. injection Ha as <-.
      exists q. unfold corners. cbn [mapO]. destruct (Z.leb_spec 0 (Z.of_nat r)); [|lia]. rewrite Nat2Z.id, R2.
      split; [reflexivity|]. now apply eqv_same. }
    apply (Forall2_chunks _ 3) in H; [|lia|exact H3].
    revert H. generalize (dedup_points le pts), (chunks 3 (map Z.of_nat (dedup_index le pts))), (l :: tris).
    clear. intros dp rows ts H. induction H as [|c t rows ts Hc H IH]; constructor; auto.
    clear - Hc. induction Hc as [|i p c t Hi Hc IH]; [exists []; split; [reflexivity|constructor]|].
    destruct IH as (ps & E & F). destruct Hi as (q & Eq & Hq). exists (q :: ps). split; [|now constructor].
    unfold corners in *. cbn [mapO] in *. destruct (0 <=? i)%Z; [|discriminate].
    destruct (nth_error _ (Z.to_nat i)); [|discriminate]. injection Eq as ->. now rewrite E.
Qed.
End Facets.

Section StlProofs.
Context {fl : floats}.
Variable f4 : codec fl.
Variable ple : list fl -> list fl -> bool.
Hypothesis order : total_order ple.

Lemma data_from_facets_ok (tris : list (list (list fl))) : Forall (fun t => length t = 3) tris ->
  shows ple (fst (data_from_facets ple tris)) (snd (data_from_facets ple tris)) tris.
Proof.
  intros H. destruct tris as [|t tris].
  - cbn. repeat split; [constructor|intros x []].
  - unfold data_from_facets. cbn [fst snd]. now apply dedup_shows.
Qed.

(** ** Binary *)
Hypothesis width : codec_width f4 4.

Definition good_facet (nf : list fl * list (list fl)) : Prop :=
  length (fst nf) = 3 /\ length (snd nf) = 3 /\ Forall (fun p => length p = 3) (snd nf).
Definition exact_facet (nf : list fl * list (list fl)) : Prop := Forall (Forall (exact f4)) (snd nf).

Lemma enc_length (l : list fl) : length (flat_map (enc f4) l) = 4 * length l.
Proof. induction l as [|v l IH]; cbn; auto. rewrite app_length, width. lia. Qed.
Lemma dec_enc (l : list fl) : Forall (exact f4) l -> map (dec f4) (chunks 4 (flat_map (enc f4) l)) = l.
Proof.
  intros H. rewrite flat_map_concat_map, chunks_concat; [|lia|].
  - rewrite map_map. induction H as [|v l Hv H IH]; cbn; auto. rewrite Hv. now f_equal.
  - apply Forall_forall. intros x Hx. apply in_map_iff in Hx. destruct Hx as (v & <- & _). apply width.
Qed.
Lemma slice_mid_app {A} (a b c : list A) n m : length a = n -> length b + n = m -> slice n m (a ++ b ++ c) = b.
Proof.
  intros <- <-. unfold slice. rewrite skipn_app, skipn_all, Nat.sub_diag. cbn [skipn app].
  rewrite Nat.add_sub. rewrite firstn_app, Nat.sub_diag, firstn_all. cbn. apply app_nil_r.
Qed.
Lemma facet_bytes_length nf : good_facet nf -> length (facet_bytes f4 nf) = 50.
Proof.
  intros (H1 & H2 & H3). unfold facet_bytes. rewrite !app_length, !enc_length, H1.
  rewrite concat_uniform_length with (k := 3) by auto. rewrite H2. reflexivity.
Qed.
Lemma record_facet_ok nf : good_facet nf -> exact_facet nf -> record_facet f4 (facet_bytes f4 nf) = snd nf.
Proof.
  intros (H1 & H2 & H3) He. unfold record_facet, facet_bytes. rewrite slice_mid_app.
  - rewrite dec_enc; [apply chunks_concat; [lia|exact H3]|]. clear - He. unfold exact_facet in He.
    induction He; cbn; [constructor|]. now apply Forall_app.
  - rewrite enc_length. lia.
  - rewrite enc_length, concat_uniform_length with (k := 3) by auto. lia.
Qed.

Lemma string_length_app s t : String.length (s ++ t) = String.length s + String.length t.
Proof. induction s; cbn; auto. Qed.
Lemma repeat_char_length c n : String.length (repeat_char c n) = n.
Proof. induction n; cbn; auto. Qed.
Lemma header_length v : String.length v <= 43 -> length (string_bytes (stl_header v)) = 80.
Proof.
  intros H. rewrite string_bytes_length. unfold stl_header. rewrite !string_length_app, repeat_char_length.
  cbn [String.length nl]. lia.
Qed.

Lemma binary_detected hdr n recs : length hdr = 80 -> (n < capacity 4)%N ->
  N.of_nat (length recs) = (50 * n)%N ->
  read_stl f4 ple (hdr ++ uint_bytes false 4 n ++ recs) = Ok (read_stl_binary f4 ple (N.to_nat n) recs).
Proof.
  intros H1 H2 H3. unfold read_stl. rewrite !app_length, H1, uint_bytes_length.
  destruct (N.ltb_spec (N.of_nat (80 + (4 + length recs))) 80); [lia|].
  destruct (N.ltb_spec (N.of_nat (80 + (4 + length recs))) 84); [lia|].
  rewrite slice_mid_app by (rewrite ?uint_bytes_length; auto).
  rewrite uint_value_bytes by auto.
  destruct (N.eqb_spec (84 + n * 50) (N.of_nat (80 + (4 + length recs)))); [|lia].
  f_equal. f_equal. rewrite app_assoc, skipn_app. rewrite skipn_all2; rewrite app_length, uint_bytes_length, H1; [|lia].
  reflexivity.
Qed.

Lemma binary_roundtrip v nfs : String.length v <= 43 -> (N.of_nat (length nfs) < capacity 4)%N ->
  Forall good_facet nfs -> Forall exact_facet nfs ->
  exists r, read_stl f4 ple (write_binary f4 v nfs) = Ok r /\
    shows ple (t_points r) (t_cells r) (map snd nfs) /\ t_normals r = None.
Proof.
  intros Hv Hn Hg He. unfold write_binary. rewrite N.mod_small by auto.
  assert (L : Forall (fun x => length x = 50) (map (facet_bytes f4) nfs)).
  { apply Forall_forall. intros x Hx. apply in_map_iff in Hx. destruct Hx as (nf & <- & Hnf).
    apply facet_bytes_length. rewrite Forall_forall in Hg. auto. }
  rewrite flat_map_concat_map. rewrite binary_detected; [|now apply header_length|exact Hn|].
  2: { rewrite concat_uniform_length with (k := 50) by exact L. rewrite map_length. lia. }
  rewrite Nat2N.id. eexists. split; [reflexivity|]. unfold read_stl_binary.
  rewrite concat_uniform_length with (k := 50) by exact L. rewrite map_length, Nat.mul_comm, Nat.div_mul by lia.
  rewrite Nat.min_id, chunks_concat by (auto; lia).
  rewrite firstn_all2 by now rewrite map_length. rewrite map_map.
  rewrite map_ext_in with (g := snd).
  2: { intros nf Hnf. rewrite Forall_forall in Hg, He. apply record_facet_ok; auto. }
  assert (H3 : Forall (fun t => length t = 3) (map snd nfs)).
  { apply Forall_forall. intros t Ht. apply in_map_iff in Ht. destruct Ht as (nf & <- & Hnf). rewrite Forall_forall in Hg.
    apply Hg in Hnf. apply Hnf. }
  pose proof (data_from_facets_ok _ H3) as D. destruct (data_from_facets ple (map snd nfs)) as [pts cs].
  cbn in *. auto.
Qed.

(** ** ASCII *)
Hypothesis Hfl : floats_ok fl.

Lemma last3_app {A} (l a : list A) : length a = 3 -> last3 (l ++ a) = a.
Proof.
  intros H. unfold last3. rewrite app_length, H, Nat.add_sub, skipn_app, skipn_all, Nat.sub_diag. reflexivity.
Qed.
Lemma data_items_app l1 l2 : data_items (l1 ++ l2) = data_items l1 ++ data_items l2.
Proof. unfold data_items. now rewrite map_app, filter_app, map_app. Qed.
Lemma strip_indented ts : forallb word ts = true -> strip ("  " ++ row_line ts)%string = row_line ts.
Proof.
  intros H. unfold strip. change (lstrip ("  " ++ row_line ts)%string) with (lstrip (row_line ts)).
  now apply strip_row.
Qed.
Lemma items_vertex (p : list fl) : length p = 3 -> data_items [vertex_line p] = [map ffmt p].
Proof.
  intros H. unfold data_items, vertex_line. cbn [map].
  assert (W : forallb word ("vertex" :: map ffmt p) = true) by (cbn [forallb]; now rewrite words_floats).
  rewrite strip_indented by exact W. cbn [filter].
  assert (N : existsb (startswith (row_line ("vertex" :: map ffmt p))) stl_comments = false).
  { destruct p as [|x p]; [discriminate|]. reflexivity. }
  rewrite N. cbn [negb map]. unfold row_line. rewrite split_ws_join by exact W.
  change ("vertex" :: map ffmt p) with (["vertex"] ++ map ffmt p). rewrite last3_app; [reflexivity|]. now rewrite map_length.
Qed.
Lemma items_normal (p : list fl) : length p = 3 -> data_items [row_line ("facet" :: "normal" :: map ffmt p)] = [map ffmt p].
Proof.
  intros H. unfold data_items. cbn [map].
  assert (W : forallb word ("facet" :: "normal" :: map ffmt p) = true) by (cbn [forallb]; now rewrite words_floats).
  rewrite strip_row by exact W. cbn [filter].
  assert (N : existsb (startswith (row_line ("facet" :: "normal" :: map ffmt p))) stl_comments = false) by reflexivity.
  rewrite N. cbn [negb map]. unfold row_line. rewrite split_ws_join by exact W.
  change ("facet" :: "normal" :: map ffmt p) with (["facet"; "normal"] ++ map ffmt p).
  rewrite last3_app; [reflexivity|]. now rewrite map_length.
Qed.

Lemma items_facet nf : good_facet nf -> data_items (facet_lines nf) = map (map ffmt) (fst nf :: snd nf).
Proof.
  intros (H1 & H2 & H3). unfold facet_lines. cbn [app]. 
  change (?a :: ?b :: ?l) with ([a] ++ [b] ++ l). rewrite !data_items_app, items_normal by auto.
  change (data_items [" outer loop"]) with (@nil (list string)).
  change (data_items [" endloop"; "endfacet"]) with (@nil (list string)). rewrite app_nil_r. cbn [app map]. f_equal.
  clear - H3 Hfl. induction H3 as [|p ps Hp H IH]; [reflexivity|]. cbn [map].
  change (vertex_line p :: map vertex_line ps) with ([vertex_line p] ++ map vertex_line ps).
  now rewrite data_items_app, items_vertex, IH.
Qed.
Lemma items_facets nfs : Forall good_facet nfs ->
  data_items (flat_map facet_lines nfs) = map (map ffmt) (flat_map (fun nf => fst nf :: snd nf) nfs).
Proof.
  induction 1 as [|nf nfs Hg H IH]; [reflexivity|]. cbn [flat_map]. rewrite data_items_app, items_facet, IH by auto.
  now rewrite map_app.
Qed.

Lemma mapM_parse_rows (rows : list (list fl)) : mapM parse_floats (map (map ffmt) rows) = Ok rows.
Proof. induction rows as [|r rows IH]; [reflexivity|]. cbn [map mapM]. rewrite parse_floats_ok by auto. cbn. now rewrite IH. Qed.

Lemma loadtxt_ok (ls : list string) (rows : list (list fl)) : data_items ls = map (map ffmt) rows ->
  Forall (fun r => length r = 3) rows -> iter_loadtxt ls = Ok rows.
Proof.
  intros E H. unfold iter_loadtxt. rewrite E, mapM_parse_rows. cbn [bind].
  destruct (rev (map (map ffmt) rows)) as [|i l] eqn:R.
  - destruct rows as [|r rows]; [reflexivity|]. cbn in R. now destruct (rev (map (map ffmt) rows)).
  - assert (Hi : length i = 3).
    { assert (In i (rev (map (map ffmt) rows))) by (rewrite R; now left). apply in_rev in H0. apply in_map_iff in H0.
      destruct H0 as (r & <- & Hr). rewrite map_length. rewrite Forall_forall in H. auto. }
    rewrite Hi. cbn [Nat.eqb]. rewrite concat_uniform_length with (k := 3) by auto.
    rewrite Nat.mul_comm, Nat.mod_mul by lia. cbn [Nat.eqb]. rewrite chunks_concat by (auto; lia). reflexivity.
Qed.

Lemma read_ascii_ok ls nfs : data_items ls = map (map ffmt) (flat_map (fun nf => fst nf :: snd nf) nfs) ->
  Forall good_facet nfs ->
  exists r, read_stl_ascii ple ls = Ok r /\ shows ple (t_points r) (t_cells r) (map snd nfs) /\
    t_normals r = match nfs with [] => None | _ => Some (map fst nfs) end.
Proof.
  intros E Hg. unfold read_stl_ascii. rewrite loadtxt_ok with (rows := flat_map (fun nf => fst nf :: snd nf) nfs); auto.
  2: { clear - Hg. induction Hg as [|nf nfs (H1 & H2 & H3) H IH]; cbn; [constructor|]. constructor; [auto|].
       apply Forall_app. auto. }
  cbn [bind]. set (gs := map (fun nf : list fl * list (list fl) => fst nf :: snd nf) nfs).
  assert (G4 : Forall (fun g => length g = 4) gs).
  { unfold gs. apply Forall_forall. intros g Hx. apply in_map_iff in Hx. destruct Hx as (nf & <- & Hnf).
    rewrite Forall_forall in Hg. destruct (Hg nf Hnf) as (_ & H2 & _). cbn. now rewrite H2. }
  rewrite flat_map_concat_map. fold gs. rewrite concat_uniform_length with (k := 4) by auto.
  rewrite Nat.mul_comm, Nat.mod_mul by lia. cbn [Nat.eqb negb]. rewrite chunks_concat by (auto; lia).
  assert (T : map (@tl _) gs = map snd nfs /\ map (hd []) gs = map fst nfs).
  { unfold gs. rewrite !map_map. split; apply map_ext; reflexivity. }
  assert (H3 : Forall (fun t => length t = 3) (map snd nfs)).
  { apply Forall_forall. intros t Ht. apply in_map_iff in Ht. destruct Ht as (nf & <- & Hnf). rewrite Forall_forall in Hg.
    apply Hg in Hnf. apply Hnf. }
  destruct T as [T1 T2]. destruct gs as [|g gs'] eqn:Eg.
  - destruct nfs; [|discriminate]. eexists. split; [reflexivity|]. cbn. repeat split; [constructor|intros x []].
  - rewrite T1, T2. pose proof (data_from_facets_ok _ H3) as D.
    destruct (data_from_facets ple (map snd nfs)) as [pts cs]. eexists. split; [reflexivity|]. cbn in *.
    split; [exact D|]. destruct nfs; [discriminate|reflexivity].
Qed.

Lemma ascii_lines nfs : Forall good_facet nfs -> Forall one_line (write_ascii nfs).
Proof.
  intros H. unfold write_ascii. constructor; [reflexivity|]. apply Forall_app. split; [|repeat constructor].
  induction H as [|nf nfs (H1 & H2 & H3) H IH]; [constructor|]. cbn [flat_map]. apply Forall_app. split; [|exact IH].
  unfold facet_lines. constructor; [|constructor].
  - apply one_line_row. cbn [forallb]. now rewrite words_floats.
  - reflexivity.
  - apply Forall_app. split; [|repeat constructor]. apply Forall_forall. intros l Hl. apply in_map_iff in Hl.
    destruct Hl as (p & <- & Hp). unfold vertex_line. apply one_line_app; [reflexivity|]. apply one_line_row.
    cbn [forallb]. now rewrite words_floats.
Qed.

(** A byte of printable text is at least 9, so four of them make a count of at least
    9 * (1 + 256 + 256^2 + 256^3). *)
Definition text_bytes (s : string) : Prop := Forall (fun b => 9 <= b)%N (string_bytes s).
Lemma text_count b : Forall (fun x => 9 <= x)%N b -> (84 <= N.of_nat (length b))%N ->
  (151587081 <= uint_value false (slice 80 84 b))%N.
Proof.
  intros H Hl. unfold slice. change (84 - 80) with 4.
  assert (L : length (firstn 4 (skipn 80 b)) = 4) by (rewrite firstn_length, skipn_length; lia).
  assert (F : Forall (fun x => 9 <= x)%N (firstn 4 (skipn 80 b))).
  { rewrite <- (firstn_skipn 80 b) in H. apply Forall_app in H. destruct H as [_ H].
    rewrite <- (firstn_skipn 4 (skipn 80 b)) in H. apply Forall_app in H. tauto. }
  destruct (firstn 4 (skipn 80 b)) as [|b0 [|b1 [|b2 [|b3 [|]]]]]; try discriminate.
  inversion F as [|? ? F0 F']; subst. inversion F' as [|? ? F1 F'']; subst. inversion F'' as [|? ? F2 F3]; subst.
  inversion F3 as [|? ? F3' _]; subst. unfold uint_value, le_value. lia.
Qed.

Lemma ascii_roundtrip nfs : Forall good_facet nfs ->
  let text := text_of (write_ascii nfs) in
  text_bytes text ->
  (N.of_nat (String.length text) < 80 \/ 84 <= N.of_nat (String.length text) < 7579354134)%N ->
  exists r, read_stl f4 ple (string_bytes text) = Ok r /\
    shows ple (t_points r) (t_cells r) (map snd nfs) /\
    t_normals r = match nfs with [] => None | _ => Some (map fst nfs) end.
Proof.
  intros Hg text Ht Hs. unfold read_stl. rewrite string_bytes_length, bytes_string_bytes.
  unfold text in *. rewrite lines_of_text by now apply ascii_lines.
  assert (D : data_items (flat_map facet_lines nfs ++ ["endsolid"]) = map (map ffmt) (flat_map (fun nf => fst nf :: snd nf) nfs)).
  { rewrite data_items_app, items_facets by auto. apply app_nil_r. }
  destruct (N.ltb_spec (N.of_nat (String.length (text_of (write_ascii nfs)))) 80).
  - apply read_ascii_ok; [|exact Hg]. unfold write_ascii.
    change ("solid" :: ?l) with (["solid"] ++ l). now rewrite data_items_app.
  - destruct (N.ltb_spec (N.of_nat (String.length (text_of (write_ascii nfs)))) 84); [lia|].
    pose proof (text_count (string_bytes (text_of (write_ascii nfs))) Ht) as C.
    rewrite string_bytes_length in C. specialize (C ltac:(lia)).
    destruct (N.eqb_spec (84 + uint_value false (slice 80 84 (string_bytes (text_of (write_ascii nfs)))) * 50)
                (N.of_nat (String.length (text_of (write_ascii nfs))))); [lia|].
    apply read_ascii_ok; [|exact Hg]. exact D.
Qed.

(** ** Meshes *)
Lemma corners_gather {A} (pts : list A) c t : corners pts c = Some t -> gather pts c = Ok t.
Proof.
  unfold corners, gather. revert t; induction c as [|i c IH]; intros t H; cbn [mapO mapM] in *; [now injection H as <-|].
  destruct (0 <=? i)%Z eqn:E; [|discriminate]. destruct (nth_error pts (Z.to_nat i)) eqn:N; [|discriminate].
  destruct (mapO _ c) eqn:M; [|discriminate]. injection H as <-. unfold znth at 1. rewrite E, N. cbn [of_option bind].
  now rewrite (IH l eq_refl).
Qed.
Lemma corners_points {A} (Q : A -> Prop) (pts : list A) c t : Forall Q pts -> corners pts c = Some t -> Forall Q t.
Proof.
  intros HQ. unfold corners. revert t; induction c as [|i c IH]; intros t H; cbn in *; [injection H as <-; constructor|].
  destruct (0 <=? i)%Z; [|discriminate]. destruct (nth_error pts (Z.to_nat i)) eqn:N; [|discriminate].
  destruct (mapO _ c) eqn:M; [|discriminate]. injection H as <-. constructor; [|now apply IH].
  rewrite Forall_forall in HQ. eapply HQ, nth_error_In; eauto.
Qed.
Lemma corners_length {A} (pts : list A) c t : corners pts c = Some t -> length t = length c.
Proof. apply mapO_length. Qed.

Lemma stl_facets_ok normal_of pts bs tris : (forall t, length (normal_of t) = 3) ->
  Forall (fun p => length p = 2 \/ length p = 3) pts ->
  triangles_of fzero pts bs tris ->
  exists nfs, stl_facets normal_of pts bs None = Ok nfs /\ map snd nfs = tris /\ map fst nfs = map normal_of tris /\
    Forall good_facet nfs /\
    (Forall (Forall (exact f4)) (map (in_space fzero) pts) -> Forall exact_facet nfs).
Proof.
  intros Hn Hp Ht. unfold triangles_of in Ht. unfold stl_facets.
  destruct (get_cells_type_spec "triangle" bs) as [G _]. rewrite G by (right; unfold dkeys; cbn; tauto). clear G. cbn [bind].
  unfold cells_of, all_cells. change (map pad_point pts) with (map (in_space fzero) pts).
  set (cs := map snd (filter _ _)) in *. clearbody cs.
  assert (M : mapM (gather (map (in_space fzero) pts)) cs = Ok tris).
  { clear - Ht. induction Ht as [|c t cs ts [_ H] F IH]; [reflexivity|]. cbn [mapM]. rewrite (corners_gather _ _ _ H).
    cbn [bind]. now rewrite IH. }
  rewrite M. cbn [bind]. eexists. split; [reflexivity|].
  rewrite map_snd_combine, map_fst_combine by (rewrite map_length; lia). repeat split; auto.
  - assert (G3 : Forall (fun p => length p = 3) (map (in_space fzero) pts)).
    { apply Forall_forall. intros q Hq. apply in_map_iff in Hq. destruct Hq as (p & <- & Hi). rewrite Forall_forall in Hp.
      destruct (Hp p Hi) as [H|H]; destruct p as [|a [|b [|c [|]]]]; try discriminate; reflexivity. }
    clear - Ht G3 Hn. induction Ht as [|c t cs ts [H1 H2] F IH]; cbn; constructor; auto.
    repeat split; cbn; [apply Hn|now rewrite (corners_length _ _ _ H2)|eapply corners_points; eauto].
  - intros He. clear - Ht He. induction Ht as [|c t cs ts [H1 H2] F IH]; cbn; constructor; auto.
    unfold exact_facet. cbn. eapply corners_points; eauto.
Qed.
End StlProofs.
