(** PLY face lists. *)
From Verif.Lib Require Import Base Facts Facts2 Text TextFacts Lines LinesFacts Runs Bytes BytesFacts Group.
From Verif.Model Require Import Core Ply.
From Verif.Spec Require Import Core Blocks Surface.
From Verif.Proofs Require Import Core CoreMisc Blocks RunsBlocks Obj.
From Coq Require Import NArith ZifyBool ZifyN ZifyNat.

Lemma corner_type_ok n : cell_type_from_count n = corner_type n.
Proof. unfold cell_type_from_count. destruct n as [|[|[|[|[|n]]]]]; reflexivity. Qed.

(** ** Integers *)
Lemma capacity_pow w : Z.of_N (capacity w) = (2 ^ (8 * Z.of_nat w))%Z.
Proof.
  unfold capacity. rewrite N2Z.inj_pow, nat_N_Z. change (Z.of_N 256) with (2 ^ 8)%Z. rewrite <- Z.pow_mul_r; lia.
Qed.
Lemma int_dec_enc big t z : 0 < snd t -> fits (fst t) (snd t) z -> int_dec big t (int_enc big t z) = z.
Proof.
  destruct t as [s w]. unfold int_dec, int_enc, fits. cbn [fst snd]. intros Hw. destruct s; intros H.
  - apply sint_value_bytes. unfold sint_range. rewrite capacity_pow.
    replace (8 * Z.of_nat w)%Z with (1 + (8 * Z.of_nat w - 1))%Z by lia. rewrite Z.pow_add_r; lia.
  - unfold sint_bytes. rewrite uint_value_bytes.
    + rewrite Z.mod_small; [lia|]. now rewrite capacity_pow.
    + rewrite Z.mod_small by now rewrite capacity_pow. pose proof (capacity_pow w). lia.
Qed.
Lemma int_enc_length big t z : length (int_enc big t z) = snd t.
Proof. apply sint_bytes_length. Qed.

(** ** Binary *)
Lemma In_slice {A} (x : A) s e l : In x (slice s e l) -> In x l.
Proof.
  unfold slice. intros H. rewrite <- (firstn_skipn s l). apply in_app_iff. right.
  rewrite <- (firstn_skipn (e - s) (skipn s l)). apply in_app_iff. now left.
Qed.
Section Binary.
Variables (big : bool) (t : bool * nat).
Hypothesis t_pos : 0 < snd t.
Notation fb := (face_bytes big t).

Lemma fb_eq c : fb c = (N.of_nat (length c) mod 256)%N :: concat (map (int_enc big t) c).
Proof. unfold face_bytes. cbn [app]. now rewrite flat_map_concat_map. Qed.
Lemma enc_all c : Forall (fun x => length x = snd t) (map (int_enc big t) c).
Proof. apply Forall_map, Forall_forall. intros. apply int_enc_length. Qed.
Lemma fb_length c : length (fb c) = 1 + length c * snd t.
Proof.
  rewrite fb_eq. cbn [length]. rewrite (concat_uniform_length (snd t)) by apply enc_all. rewrite map_length. lia.
Qed.

Lemma uint_value_one x : uint_value big [x] = x.
Proof. unfold uint_value. destruct big; cbn; lia. Qed.

Lemma parse_ragged_ok faces pre : Forall (fun c => length c <= 255) faces ->
  parse_ragged big 1 (snd t) (length faces) (length pre) (pre ++ concat (map fb faces)) =
  cumsum_from (length pre) (map (@length N) (map fb faces)).
Proof.
  intros H. revert pre; induction H as [|c faces Hc H IH]; intros pre; [reflexivity|].
  cbn [length parse_ragged map concat cumsum_from].
  assert (E : N.to_nat (uint_value big (slice (length pre) (length pre + 1) (pre ++ fb c ++ concat (map fb faces)))) = length c).
  { rewrite fb_eq. unfold slice. rewrite skipn_app, skipn_all, Nat.sub_diag. cbn [skipn app].
    replace (length pre + 1 - length pre) with 1 by lia. cbn [firstn]. rewrite uint_value_one. rewrite N.mod_small; lia. }
  rewrite E. rewrite fb_length. replace (length pre + (length c * snd t + 1)) with (length pre + (1 + length c * snd t)) by lia.
  f_equal. rewrite app_assoc. rewrite <- fb_length, <- app_length. apply IH.
Qed.

Lemma diff_cumsum x l : diff x (cumsum_from x l) = l.
Proof. revert x; induction l as [|y l IH]; intros x; cbn; [reflexivity|]. rewrite IH. f_equal. lia. Qed.

Lemma nth_starts s l x : s <= length l -> nth s (x :: cumsum_from x l) 0 = x + sum_nat (firstn s l).
Proof.
  revert x l; induction s as [|s IH]; intros x l H; [cbn; lia|]. destruct l as [|y l]; [cbn in H; lia|].
  cbn [firstn sum_nat cumsum_from]. change (nth (S s) (x :: x + y :: cumsum_from (x + y) l) 0) with (nth s (x + y :: cumsum_from (x + y) l) 0).
  rewrite IH by (cbn in H; lia). lia.
Qed.

Lemma slice_concat {A} (rows : list (list A)) s e : s <= e -> e <= length rows ->
  slice (sum_nat (firstn s (map (@length A) rows))) (sum_nat (firstn e (map (@length A) rows))) (concat rows) =
  concat (slice s e rows).
Proof.
  intros Hse He. rewrite !firstn_map, <- !concat_length_sum.
  assert (E : rows = firstn s rows ++ slice s e rows ++ skipn e rows).
  { unfold slice. rewrite <- (firstn_skipn s rows) at 1. f_equal. rewrite <- (firstn_skipn (e - s) (skipn s rows)) at 1. f_equal.
    rewrite skipn_skipn. f_equal. lia. }
  assert (E2 : firstn e rows = firstn s rows ++ slice s e rows).
  { unfold slice. replace e with (s + (e - s)) at 1 by lia. generalize (e - s) as k. clear. intros k. revert rows; induction s; intros rows; cbn; [reflexivity|].
    destruct rows; cbn; [now rewrite !firstn_nil|]. now rewrite IHs. }
  assert (E3 : concat rows = concat (firstn s rows) ++ concat (slice s e rows) ++ concat (skipn e rows))
    by now rewrite <- !concat_app, <- E.
  rewrite E2, E3, concat_app, app_length.
  unfold slice at 1. rewrite skipn_app, skipn_all, Nat.sub_diag. cbn [skipn app].
  replace (length (concat (firstn s rows)) + length (concat (slice s e rows)) - length (concat (firstn s rows)))
    with (length (concat (slice s e rows))) by lia.
  rewrite firstn_app, firstn_all, Nat.sub_diag. cbn [firstn]. apply app_nil_r.
Qed.

Lemma runs_keys_in (l : list nat) a : In a (map fst (runs Nat.eqb l)) -> In a l.
Proof.
  intros H. apply in_map_iff in H. destruct H as ([b n] & <- & H). cbn. pose proof (runs_pos Nat.eqb l b n H).
  rewrite <- (expand_runs Nat.eqb Nat.eqb_spec l). unfold expand. apply in_flat_map. exists (b, n). split; auto.
  cbn. destruct n; [lia|]. now left.
Qed.

Lemma frame_decode c : Forall (fits (fst t) (snd t)) c ->
  map (int_dec big t) (chunks (snd t) (skipn 1 (fb c))) = c.
Proof.
  intros H. rewrite fb_eq. cbn [skipn]. rewrite chunks_concat by (auto; apply enc_all). rewrite map_map.
  rewrite <- (map_id c) at 2. apply map_ext_in. intros z Hz. rewrite Forall_forall in H. now apply int_dec_enc, H.
Qed.

Theorem binary_list_ok faces rest : Forall (fun c => length c <= 255 /\ Forall (fits (fst t) (snd t)) c) faces ->
  read_binary_list big 1 t (length faces) (concat (map fb faces) ++ rest) =
  Ok (length (concat (map fb faces)), regroup (map (fun f => (corner_type (length f), f)) faces)).
Proof.
  intros H.
  assert (Hw : Forall (fun c => length c <= 255) faces) by (eapply Forall_impl; [|exact H]; cbn; tauto).
  unfold read_binary_list.
  assert (Hp : parse_ragged big 1 (snd t) (length faces) 0 (concat (map fb faces) ++ rest) =
               cumsum_from 0 (map (@length N) (map fb faces))).
  { etransitivity; [|exact (parse_ragged_ok faces [] Hw)]. cbn [app length]. clear - Hw t_pos. 
    assert (G : forall faces pre, Forall (fun c => length c <= 255) faces ->
      parse_ragged big 1 (snd t) (length faces) (length pre) ((pre ++ concat (map fb faces)) ++ rest) =
      parse_ragged big 1 (snd t) (length faces) (length pre) (pre ++ concat (map fb faces))).
    { clear faces Hw. induction faces as [|c faces IH]; intros pre Hw; [reflexivity|]. inversion Hw; subst.
      cbn [length parse_ragged map concat].
      assert (E : slice (length pre) (length pre + 1) ((pre ++ fb c ++ concat (map fb faces)) ++ rest) =
                  slice (length pre) (length pre + 1) (pre ++ fb c ++ concat (map fb faces))).
      { rewrite <- !app_assoc, !fb_eq. unfold slice. rewrite !skipn_app, !skipn_all, !Nat.sub_diag. cbn [skipn app].
        replace (length pre + 1 - length pre) with 1 by lia. reflexivity. }
      rewrite E. f_equal.
      assert (E3 : N.to_nat (uint_value big (slice (length pre) (length pre + 1) (pre ++ fb c ++ concat (map fb faces)))) = length c).
      { rewrite fb_eq. unfold slice. rewrite skipn_app, skipn_all, Nat.sub_diag. cbn [skipn app].
        replace (length pre + 1 - length pre) with 1 by lia. cbn [firstn]. rewrite uint_value_one. rewrite N.mod_small; lia. }
      rewrite E3. replace (length pre + (length c * snd t + 1)) with (length (pre ++ fb c)) by (rewrite app_length, fb_length; lia).
      rewrite app_assoc. apply IH. auto. }
    apply (G faces []). exact Hw. }
  rewrite Hp. cbn [tl]. rewrite diff_cumsum.
  set (rows := map fb faces) in *. set (lens := map (@length N) rows) in *.
  assert (Hlast : last (0 :: cumsum_from 0 lens) 0 = length (concat rows)).
  { rewrite concat_length_sum. fold lens. clear. assert (G : forall l x, last (x :: cumsum_from x l) 0 = x + sum_nat l).
    { induction l as [|y l IH]; intros x; [cbn; lia|]. cbn [cumsum_from sum_nat].
      change (last (x :: x + y :: cumsum_from (x + y) l) 0) with (last (x + y :: cumsum_from (x + y) l) 0). rewrite IH. lia. }
    apply G. }
  rewrite Hlast. assert (Hfe : faces = [] \/ faces <> []) by (destruct faces; [now left|right; discriminate]).
  destruct Hfe as [Ef|Ef]; [unfold lens, rows; rewrite Ef; reflexivity|].
  assert (Hne : lens <> []) by (unfold lens, rows; destruct faces; [congruence|discriminate]).
  rewrite bounds_spans by (auto using Nat.eqb_spec).
  assert (Hll : length lens = length faces) by (unfold lens, rows; now rewrite !map_length).
  set (name := fun a => corner_type ((a - 1) / snd t)). set (w := fun a => (a - 1) / snd t).
  set (g := fun se : nat * nat => Block (name (nth (fst se) lens 0)) (slice (fst se) (snd se) faces)).
  assert (Hlen : forall i, i < length faces -> exists c, nth_error faces i = Some c /\ nth_error rows i = Some (fb c) /\ nth i lens 0 = 1 + length c * snd t).
  { intros i Hi. destruct (nth_error faces i) as [c|] eqn:E; [|apply nth_error_None in E; lia].
    exists c. split; auto. unfold rows. rewrite nth_error_map, E. split; [reflexivity|].
    apply nth_error_nth. unfold lens, rows. rewrite !nth_error_map, E. cbn [option_map]. now rewrite fb_length. }
  assert (Hw1 : forall k, (1 + k * snd t - 1) / snd t = k).
  { intros k. replace (1 + k * snd t - 1) with (k * snd t) by lia. apply Nat.div_mul. lia. }
  rewrite (mapM_map _ (fun se => [g se])).
  2:{ intros [s e] Hin. pose proof (span_const Nat.eqb Nat.eqb_spec lens s e Hin) as (Hlt & Hle & a & Ha).
      unfold read_ply_block. destruct (Nat.eqb_spec s e); [lia|].
      rewrite !nth_starts by lia. cbn [plus].
      assert (Hsl : slice (sum_nat (firstn s lens)) (sum_nat (firstn e lens)) (concat rows ++ rest) = concat (slice s e rows)).
      { rewrite <- slice_concat by (unfold rows; rewrite ?map_length; lia). fold lens. unfold slice. rewrite skipn_app, firstn_app.
        assert (sum_nat (firstn s lens) <= sum_nat (firstn e lens) <= length (concat rows)).
        { rewrite concat_length_sum. fold lens. split.
          - replace e with (s + (e - s)) by lia. generalize (e - s) as k. clear. generalize lens. induction s as [|s IH]; intros l k; cbn; [lia|].
            destruct l; cbn; [lia|]. specialize (IH l k). lia.
          - rewrite <- (firstn_skipn e lens) at 2. rewrite sum_nat_app. lia. }
        rewrite skipn_length. replace (sum_nat (firstn e lens) - sum_nat (firstn s lens) - (length (concat rows) - sum_nat (firstn s lens))) with 0 by lia.
        cbn [firstn]. apply app_nil_r. }
      rewrite Hsl. assert (Hs : s < length faces) by lia. destruct (Hlen s Hs) as (c & Hc1 & Hc2 & Hc3).
      rewrite Hc3, Hw1. 
      assert (Hun : Forall (fun x => length x = 1 + length c * snd t) (slice s e rows)).
      { apply Forall_forall. intros x Hx. apply In_nth_error in Hx. destruct Hx as [i Hi]. rewrite nth_error_slice in Hi.
        destruct (Nat.ltb_spec i (e - s)); [|discriminate].
        assert (nth_error lens (s + i) = Some (length x)) by (unfold lens; now rewrite nth_error_map, Hi).
        rewrite Ha in H1 by lia. assert (Hsa : nth_error lens s = Some a) by (apply Ha; lia).
        apply nth_error_nth with (d := 0) in Hsa. rewrite Hc3 in Hsa. congruence. }
      rewrite frombuffer_concat by (auto; lia). cbn [bind]. do 2 f_equal. unfold g. cbn [fst snd]. unfold name.
      rewrite Hc3, Hw1, corner_type_ok. do 2 f_equal. unfold rows. rewrite <- map_slice, map_map.
      rewrite <- (map_id (slice s e faces)) at 2. apply map_ext_in. intros c' Hc'. apply frame_decode.
      apply In_slice in Hc'. rewrite Forall_forall in H. now apply H. }
  cbn [bind]. do 2 f_equal.
  assert (Ec : forall l, concat (map (fun se => [g se]) l) = map g l) by (induction l; cbn; congruence).
  rewrite Ec, (bounds_blocks Nat.eqb Nat.eqb_spec name lens faces).
  - assert (Hsum : length faces = sum_nat (map snd (runs Nat.eqb lens))) by (rewrite runs_total; lia).
    assert (Hbw : forall a, In a lens -> exists k, a = 1 + k * snd t).
    { intros a Ha. unfold lens, rows in Ha. rewrite map_map in Ha. apply in_map_iff in Ha. destruct Ha as (c & <- & _).
      exists (length c). apply fb_length. }
    rewrite (grouped_regroup (blocks_of name (runs Nat.eqb lens) faces)).
    + f_equal. rewrite blocks_of_cells by auto. rewrite expand_runs by apply Nat.eqb_spec.
      unfold lens, rows. rewrite !map_map. clear - Hw1 t_pos. induction faces as [|c faces IH]; [reflexivity|].
      cbn [map combine]. rewrite IH. unfold name. now rewrite fb_length, Hw1.
    + apply (blocks_of_grouped name w); auto.
      * intros a n. apply runs_pos.
      * apply runs_alternating, Nat.eqb_spec.
      * intros a b Ia Ib _ Ew. apply runs_keys_in in Ia, Ib. destruct (Hbw a Ia) as [k ->]. destruct (Hbw b Ib) as [k' ->].
        unfold w in Ew. rewrite !Hw1 in Ew. now subst.
      * rewrite expand_runs by apply Nat.eqb_spec. unfold lens, rows. rewrite map_map. clear - Hw1 t_pos.
        induction faces as [|c faces IH]; cbn [map]; constructor; auto. unfold w. now rewrite fb_length, Hw1.
  - lia.
  - intros s e a Hin Ha. unfold g. cbn [fst snd]. f_equal. f_equal. now apply nth_error_nth.
Qed.
End Binary.

(** ** ASCII *)
Lemma ply_acc acc n idx : keyed acc -> length idx = n ->
  add_ply_face (map (fun g => (corner_type (fst g), snd g)) acc) n idx =
  map (fun g => (corner_type (fst g), snd g)) (add_run Nat.eqb acc (n, idx)) /\ keyed (add_run Nat.eqb acc (n, idx)).
Proof.
  intros H Hn. destruct acc as [|[w fs] acc].
  - cbn. rewrite corner_type_ok. split; [reflexivity|]. repeat constructor; cbn; auto; discriminate.
  - inversion H as [|? ? [Hne Hw] Hk]; subst. cbn [fst snd] in *. destruct fs as [|f fs]; [congruence|].
    assert (Hf : length f = w) by now inversion Hw. cbn [map add_ply_face add_run fst snd].
    rewrite Hf, (Nat.eqb_sym w). destruct (Nat.eqb_spec (length idx) w) as [E|E].
    + split; [reflexivity|]. constructor; auto. split; [discriminate|]. cbn. now constructor.
    + rewrite corner_type_ok. split; [reflexivity|]. constructor; [|now constructor]. cbn. split; [discriminate|]. repeat constructor.
Qed.

Lemma read_face_lines_ok faces rest acc : keyed acc ->
  exists acc', read_face_lines (length faces) (map face_line faces ++ rest) (map (fun g => (corner_type (fst g), snd g)) acc) =
    Ok (map (fun g => (corner_type (fst g), snd g)) acc') /\
    acc' = fold_left (add_run Nat.eqb) (map (fun f => (length f, f)) faces) acc.
Proof.
  revert acc; induction faces as [|c faces IH]; intros acc Hk; [exists acc; auto|].
  cbn [length read_face_lines map app fold_left line1 hd tl].
  unfold face_line at 1, row_line. rewrite split_ws_join by (cbn [forallb]; now rewrite word_str_of_nat, words_ints).
  rewrite str_of_nat_Z, parse_Z_str_of_Z. cbn [of_option bind]. rewrite Nat2Z.id.
  rewrite firstn_all2 by (rewrite map_length; lia). rewrite parse_ints_ok. cbn [bind].
  destruct (ply_acc acc (length c) c Hk eq_refl) as [E Hk']. rewrite E. now apply IH.
Qed.

(** ** The property line *)
Lemma no_space_blank s : no_space s = true -> char_in " " s = false.
Proof.
  induction s as [|c s IH]; [reflexivity|]. cbn [no_space char_in]. intros H. apply andb_true_iff in H. destruct H as [Hc Hs].
  rewrite IH by auto. destruct (Ascii.eqb_spec " " c) as [<-|]; [discriminate|reflexivity].
Qed.
Lemma list_property_ok name : word name = true ->
  read_list_property (list_property_line name) = Ok ("uint8", name, "vertex_indices").
Proof.
  intros H. apply word_no_space in H. destruct H as [H _]. unfold read_list_property, list_property_line.
  change ("property list uint8 " ++ name ++ " vertex_indices")%string
    with (join " " ["property"; "list"; "uint8"; name; "vertex_indices"]).
  rewrite split_join_char; [reflexivity|discriminate|]. cbn [forallb]. rewrite (no_space_blank name) by auto. reflexivity.
Qed.
Lemma property_ok name key : word name = true -> word key = true ->
  read_property (property_line name key) = Ok (name, key).
Proof.
  intros Hn Hk. apply word_no_space in Hn, Hk. destruct Hn as [Hn _], Hk as [Hk _]. unfold read_property, property_line.
  change ("property " ++ name ++ " " ++ key)%string with (join " " ["property"; name; key]).
  rewrite split_join_char; [reflexivity|discriminate|]. cbn [forallb]. rewrite (no_space_blank name), (no_space_blank key) by auto. reflexivity.
Qed.

(** ** The whole *)
Definition wide (code : string) : string := if String.eqb code "i8" then "i4" else code.

Lemma cast_id code b sg w : int_type (wide code) = Some (sg, w) ->
  Forall (Forall (fits sg w)) (bdata b) -> cast_down (code, b) = (wide code, b).
Proof.
  unfold cast_down, wide. cbn [fst snd]. destruct (String.eqb code "i8"); [|reflexivity]. intros E H. cbn in E. injection E as <- <-.
  destruct b as [bt d]. cbn [btype bdata] in *. do 2 f_equal. rewrite <- (map_id d) at 2. apply map_ext_in. intros r Hr.
  rewrite <- (map_id r) at 2. apply map_ext_in. intros z Hz. apply (int_dec_enc false (true, 4)); [cbn; lia|].
  rewrite Forall_forall in H. specialize (H r Hr). rewrite Forall_forall in H. now apply H.
Qed.

Lemma faces_ascii_ok bs : Forall (fun b => bdata b <> []) (filter legal bs) ->
  faces_ascii bs = map face_line (ply_faces bs).
Proof.
  unfold faces_ascii, ply_faces, faces_of. change (fun b => smem (btype b) ["vertex"; "line"; "triangle"; "quad"; "polygon"]) with legal.
  induction 1 as [|b l Hb H IH]; [reflexivity|]. cbn [flat_map]. rewrite IH, map_app. f_equal. unfold block_lines.
  destruct (bdata b); [congruence|reflexivity].
Qed.
Lemma faces_binary_ok big t bs : faces_binary big t bs = concat (map (face_bytes big t) (ply_faces bs)).
Proof.
  unfold faces_binary, ply_faces, faces_of. change (fun b => smem (btype b) ["vertex"; "line"; "triangle"; "quad"; "polygon"]) with legal.
  induction (filter legal bs) as [|b l IH]; [reflexivity|]. cbn [flat_map]. rewrite IH, map_app, concat_app. f_equal.
  apply flat_map_concat_map.
Qed.
Lemma num_faces_ok bs : num_faces bs = length (ply_faces bs).
Proof.
  unfold num_faces, ply_faces, faces_of. change (fun b => smem (btype b) ["vertex"; "line"; "triangle"; "quad"; "polygon"]) with legal.
  induction (filter legal bs) as [|b l IH]; [reflexivity|]. cbn [map sum_nat flat_map]. now rewrite app_length, IH.
Qed.

Lemma codes_ok code sg w : int_type (wide code) = Some (sg, w) ->
  0 < w /\ exists name, dget (wide code) numpy_to_ply = Some name /\ word name = true /\
    dget name ply_to_numpy <> None /\ (wide code <> "i2" -> dget name ply_binary_table = Some (wide code)).
Proof.
  intros H. assert (Hin : In (wide code, (sg, w)) [("i1", (true, 1)); ("i2", (true, 2)); ("i4", (true, 4)); ("i8", (true, 8));
             ("u1", (false, 1)); ("u2", (false, 2)); ("u4", (false, 4)); ("u8", (false, 8))]) by now apply dget_In.
  cbn in Hin. repeat (destruct Hin as [Hin|Hin]; [injection Hin as <- <- <-; split; [lia|];
     eexists; split; [reflexivity|]; split; [reflexivity|]; split; [discriminate|]; intros Hne; try reflexivity; congruence|]).
  destruct Hin.
Qed.

Theorem ply_roundtrip (binary big : bool) code sg w (bs : list block) :
  bs <> [] -> int_type (wide code) = Some (sg, w) ->
  Forall (fun b => Forall (Forall (fits sg w)) (bdata b)) bs ->
  Forall (fun c => length c <= 255) (ply_faces bs) ->
  (if binary then code <> "i2" else Forall (fun b => bdata b <> []) (filter legal bs)) ->
  exists (n : nat) (prop : string) (d : face_data), write_faces binary big (map (pair code) bs) = Ok (n, prop, d) /\
    n = length (ply_faces bs) /\
    read_faces big prop n d = Ok (regroup (map (fun f => (corner_type (length f), f)) (ply_faces bs))).
Proof.
  intros Hne Hc Hf Hw Hv. unfold write_faces.
  assert (Ecast : map cast_down (map (pair code) bs) = map (pair (wide code)) bs).
  { rewrite map_map. apply map_ext_in. intros b Hb. rewrite Forall_forall in Hf. now apply (cast_id code b sg w), Hf. }
  rewrite Ecast, !map_map. cbn [snd]. rewrite map_id.
  assert (Ecom : common_type (map (pair (wide code)) bs) = Ok (wide code)).
  { destruct bs as [|b bs]; [congruence|]. cbn [map common_type fst]. replace (forallb _ _) with true; [reflexivity|].
    symmetry. apply forallb_forall. intros x [<-|Hx]; [apply String.eqb_refl|]. apply in_map_iff in Hx. destruct Hx as (? & <- & _).
    apply String.eqb_refl. }
  rewrite Ecom. cbn [bind]. destruct (codes_ok code sg w Hc) as (Hpos & name & Hn1 & Hn2 & Hn3 & Hn4).
  rewrite Hn1, Hc. cbn [of_option bind]. rewrite num_faces_ok.
  do 3 eexists. split; [reflexivity|]. split; [reflexivity|].
  destruct binary; cbn [read_faces].
  - unfold read_faces_binary. rewrite list_property_ok by auto. cbn [bind].
    change (dget "uint8" ply_binary_table) with (Some "u1"). cbn [of_option bind].
    rewrite Hn4.
    2:{ unfold wide. destruct (String.eqb_spec code "i8"); [discriminate|auto]. }
    cbn [of_option bind]. change (int_type "u1") with (Some (false, 1)). rewrite Hc. cbn [of_option bind snd].
    assert (Hall : Forall (fun c => length c <= 255 /\ Forall (fits sg w) c) (ply_faces bs)).
    { apply Forall_forall. intros c Hin. split; [rewrite Forall_forall in Hw; now apply Hw|].
      unfold ply_faces, faces_of in Hin. apply in_flat_map in Hin. destruct Hin as (b & Hb & Hin).
      apply filter_In in Hb. rewrite Forall_forall in Hf. specialize (Hf b (proj1 Hb)).
      rewrite Forall_forall in Hf. now apply Hf. }
    rewrite faces_binary_ok, <- (app_nil_r (concat _)), (binary_list_ok big (sg, w)) by auto.
    reflexivity.
  - unfold read_faces_ascii. rewrite list_property_ok by auto. cbn [bind].
    change (dget "uint8" ply_to_numpy) with (Some "u1"). cbn [of_option bind].
    destruct (dget name ply_to_numpy) as [cd|]; [|congruence]. cbn [of_option bind].
    rewrite faces_ascii_ok by auto. rewrite <- (app_nil_r (map face_line _)).
    destruct (read_face_lines_ok (ply_faces bs) [] []) as (acc & Er & Ha); [constructor|].
    cbn [map] in Er. rewrite Er.
    cbn [bind]. f_equal. rewrite <- width_blocks, <- (run_groups_adj Nat.eqb Nat.eqb_spec).
    unfold run_groups. rewrite <- Ha. unfold in_order. rewrite <- !map_rev, !map_map. reflexivity.
Qed.
