(** OFF round trip. *)
From Verif.Lib Require Import Base Facts Facts2 Text TextFacts Lines LinesFacts BytesFacts.
From Verif.Model Require Import Core Off.
From Verif.Spec Require Import Core Surface.
From Verif.Proofs Require Import Core.

Section OffProofs.
Context {fl : floats}.
Hypothesis fl_ok : floats_ok fl.

Lemma off_pad_ok k (pts : list (list fl)) : k = 2 \/ k = 3 -> Forall (fun p => length p = k) pts ->
  off_pad pts = map (in_space fzero) pts.
Proof.
  intros Hk H. destruct pts as [|p pts]; [reflexivity|]. unfold off_pad. inversion H as [|? ? Hp Hr]; subst.
  assert (E : forall q : list fl, length q = 3 -> in_space fzero q = q) by (intros [|? [|? [|? [|]]]]; cbn; congruence).
  destruct Hk as [Hk|Hk].
  - destruct p as [|a [|b [|]]]; try discriminate. apply map_ext_in. intros q Hq. rewrite Forall_forall in H.
    specialize (H q Hq). cbn in H. destruct q as [|c [|d [|]]]; try discriminate. reflexivity.
  - rewrite Hk in *. destruct p as [|a [|b [|c [|]]]]; try discriminate. symmetry.
    rewrite <- (map_id (_ :: pts)) at 2. apply map_ext_in. intros q Hq. rewrite Forall_forall in H. apply E, H, Hq.
Qed.

Lemma row_lines_drop rows rest : Forall (fun r => forallb word r = true /\ r <> []) rows ->
  drop_blank (row_lines rows ++ rest) = drop_blank (map row_line rows ++ rest).
Proof. destruct rows; reflexivity. Qed.

Lemma concat_map_map {A B} (f : A -> B) ll : concat (map (map f) ll) = map f (concat ll).
Proof. induction ll as [|l ll IH]; cbn; [reflexivity|]. now rewrite IH, map_app. Qed.

Lemma words_good {A} (f : A -> string) n rows : (forall a, word (f a) = true) -> n <> 0 ->
  Forall (fun r : list A => length r = n) rows -> Forall (fun r => forallb word r = true /\ r <> []) (map (map f) rows).
Proof.
  intros Hf Hn H. apply Forall_map. eapply Forall_impl; [|exact H]. cbn. intros r Hr. split.
  - clear - Hf. induction r; cbn; auto. now rewrite Hf.
  - destruct r; [cbn in Hr; congruence|discriminate].
Qed.

Lemma count_line n m : split_char " " (row_line [str_of_nat n; str_of_nat m; "0"]) = [str_of_nat n; str_of_nat m; "0"].
Proof.
  unfold row_line. apply split_join_char; [discriminate|].
  assert (E : forall k, char_in " " (str_of_nat k) = false).
  { intros k. pose proof (word_str_of_nat k) as H. apply word_no_space in H. destruct H as [H _].
    induction (str_of_nat k) as [|c s IH]; [reflexivity|]. cbn [no_space char_in] in *.
    apply andb_true_iff in H. destruct H as [Hc Hs]. rewrite IH by auto.
    destruct (Ascii.eqb_spec " " c) as [<-|]; [discriminate|reflexivity]. }
  cbn [forallb]. now rewrite !E.
Qed.

Lemma off_roundtrip k (pts : list (list fl)) bs : k = 2 \/ k = 3 -> Forall (fun p => length p = k) pts ->
  Forall (fun c => length c = 3) (cells_of "triangle" bs) ->
  exists file, write_off pts bs = Ok file /\
    read_off file = Ok (map (in_space fzero) pts, [Block "triangle" (cells_of "triangle" bs)]).
Proof.
  intros Hk Hp Ht. unfold write_off. destruct (get_cells_type_spec "triangle" bs) as [G _].
  rewrite G by (right; unfold dkeys; cbn; tauto). clear G. cbn [bind]. rewrite (off_pad_ok k) by auto.
  eexists. split; [reflexivity|]. set (tri := cells_of "triangle" bs) in *. clearbody tri. clear bs.
  assert (Hp3 : Forall (fun p => length p = 3) (map (in_space fzero) pts)).
  { apply Forall_map. eapply Forall_impl; [|exact Hp]. intros p E. destruct Hk as [-> | ->];
      destruct p as [|a [|b [|c [|]]]]; try discriminate; reflexivity. }
  rewrite <- (map_length (in_space fzero) pts). set (P := map (in_space fzero) pts) in *. clearbody P. clear k Hk pts Hp.
  unfold read_off. cbn [app line1 hd tl]. change (strip "OFF") with "OFF". cbn [String.eqb negb].
  cbn [off_counts]. change (blank "# Created by meshio" || startswith (strip "# Created by meshio") "#") with true.
  change (blank "" || startswith (strip "") "#") with true. cbn iota.
  set (cnt := row_line [str_of_nat (length P); str_of_nat (length tri); "0"]).
  assert (Wc : forallb word [str_of_nat (length P); str_of_nat (length tri); "0"] = true)
    by (cbn [forallb]; now rewrite !word_str_of_nat).
  assert (Ec : blank cnt || startswith (strip cnt) "#" = false).
  { unfold cnt. rewrite blank_row by (auto; discriminate). rewrite strip_row by auto. cbn [orb].
    unfold row_line. rewrite join_cons. pose proof (str_of_N_all_digits (N.of_nat (length P))) as Hd.
    pose proof (str_of_N_nonempty (N.of_nat (length P))) as Hn. unfold str_of_nat.
    destruct (str_of_N (N.of_nat (length P))) as [|c s]; [congruence|]. cbn [append]. unfold startswith. cbn [String.prefix].
    destruct (ascii_dec "#" c) as [<-|]; [discriminate|reflexivity]. }
  rewrite Ec. cbn [bind fst snd]. unfold cnt at 1. rewrite strip_row, count_line by auto.
  rewrite !str_of_nat_Z, !parse_Z_str_of_Z. cbn [of_option bind].
  destruct (Z.ltb_spec (Z.of_nat (length P)) 0); [lia|]. destruct (Z.ltb_spec (Z.of_nat (length tri)) 0); [lia|]. cbn [orb].
  rewrite !Nat2Z.id.
  assert (W1 : Forall (fun r => forallb word r = true /\ r <> []) (map (map (@ffmt fl)) P)).
  { apply (words_good _ 3); auto. intros a. apply fl_ok. }
  assert (W2 : Forall (fun r => forallb word r = true /\ r <> []) (map (fun c => map str_of_Z (3%Z :: c)) tri)).
  { rewrite <- (map_map (cons 3%Z) (map str_of_Z)). apply (words_good _ 4); [apply word_str_of_Z|discriminate|].
    apply Forall_map. eapply Forall_impl; [|exact Ht]. cbn. lia. }
  destruct (take_rows_loose (map (map (@ffmt fl)) P)
              (row_lines (map (fun c => map str_of_Z (3%Z :: c)) tri))
              ("" :: row_lines (map (map ffmt) P) ++ row_lines (map (fun c => map str_of_Z (3%Z :: c)) tri))
              (3 * length P)) as (r1 & -> & D1).
  { cbn [drop_blank]. change (blank "") with true. cbn iota. now apply row_lines_drop. }
  { exact W1. }
  { rewrite concat_map_map, map_length, (concat_uniform_length 3) by auto. reflexivity. }
  cbn [of_option bind fst snd]. rewrite concat_map_map, parse_floats_ok by auto. cbn [bind].
  destruct (take_rows_loose (map (fun c => map str_of_Z (3%Z :: c)) tri) [] r1 (4 * length tri)) as (r2 & -> & _).
  { rewrite D1, <- (app_nil_r (row_lines _)). now apply row_lines_drop. }
  { exact W2. }
  { rewrite <- (map_map (cons 3%Z) (map str_of_Z)), concat_map_map, map_length, (concat_uniform_length 4).
    - now rewrite map_length.
    - apply Forall_map. eapply Forall_impl; [|exact Ht]. cbn. lia. }
  cbn [of_option bind fst snd]. rewrite <- (map_map (cons 3%Z) (map str_of_Z)), concat_map_map, parse_ints_ok. cbn [bind].
  rewrite !chunks_concat; auto; try lia.
  - replace (forallb _ _) with true.
    + rewrite map_map. cbn [tl]. now rewrite map_id.
    + symmetry. apply forallb_forall. intros r Hr. apply in_map_iff in Hr. destruct Hr as (c & <- & _). reflexivity.
  - apply Forall_map. eapply Forall_impl; [|exact Ht]. cbn. lia.
Qed.
End OffProofs.
