(** Proofs about Model/Wkt.v. *)
From Verif.Lib Require Import Base Facts Facts2 Text TextFacts Lines LinesFacts Runs.
From Verif.Model Require Import Core Wkt.
From Verif.Spec Require Import Core Surface.
From Verif.Proofs Require Import Core Stl.
From Coq Require Import ZifyBool ZifyNat.

(** ** Numbers *)
Lemma digits_all s : digits s -> all_digits s = true.
Proof.
  unfold digits. induction s as [|c s IH]; [reflexivity|]. cbn [list_ascii_of_string all_digits]. intros H. rewrite IH by (intros; apply H; now right).
  rewrite andb_true_r. specialize (H c (or_introl eq_refl)). cbn in H.
  repeat (destruct H as [<-|H]; [reflexivity|]). destruct H.
Qed.

(** What may follow a number. *)
Definition stops (r : string) : Prop :=
  match r with "" => True | String c _ => is_digit c = false /\ Ascii.eqb c "." = false end.
Definition no_digit (r : string) : Prop := match r with "" => True | String c _ => is_digit c = false end.

Lemma take_digits_ok d r : all_digits d = true -> no_digit r -> take_digits (d ++ r) = (d, r).
Proof.
  induction d as [|c d IH]; cbn [all_digits append]; intros Hd Hr.
  - destruct r as [|c r]; [reflexivity|]. cbn in *. now rewrite Hr.
  - apply andb_true_iff in Hd. destruct Hd as [Hc Hd]. cbn [take_digits]. rewrite Hc. now rewrite IH.
Qed.
Lemma opt_sign_ok sg r : In sg [""; "+"; "-"] ->
  (sg = "" -> match r with "" => True | String c _ => Ascii.eqb c "+" || Ascii.eqb c "-" = false end) ->
  opt_sign (sg ++ r) = (sg, r).
Proof.
  intros [<-|[<-|[<-|[]]]] H; cbn [append opt_sign]; try reflexivity.
  specialize (H eq_refl). destruct r; [reflexivity|]. cbn. now rewrite H.
Qed.

Lemma float_tok_ok s r : plain_number s -> stops r -> float_tok (s ++ r) = Ok (s, r).
Proof.
  intros (sg & d1 & dot & d2 & -> & Hs & Hd & H1 & H2 & Hne) Hr. apply digits_all in H1, H2.
  unfold float_tok. rewrite !str_app_assoc. rewrite opt_sign_ok; auto.
  2:{ intros _. destruct d1 as [|c d1].
      - cbn [append]. destruct Hd as [<-|[<-|[]]]; [|reflexivity]. cbn [append]. destruct d2 as [|c d2]; [destruct Hne; congruence|].
        cbn [append all_digits] in *. apply andb_true_iff in H2. destruct (digit_not_sign c) as [A B]; [tauto|].
        apply Ascii.eqb_neq in A, B. now rewrite A, B.
      - cbn [append all_digits] in *. apply andb_true_iff in H1. destruct (digit_not_sign c) as [A B]; [tauto|].
        apply Ascii.eqb_neq in A, B. now rewrite A, B. }
  assert (Hsr : no_digit r) by (destruct r; cbn in *; tauto).
  destruct Hd as [<-|[<-|[]]].
  - cbn [append]. destruct (String.eqb_spec d2 "") as [->|E2].
    + cbn [append]. rewrite take_digits_ok by auto. unfold opt_char.
      assert (G : opt_char "." r = ("", r)) by (destruct r; cbn in *; [reflexivity|]; now rewrite (proj2 Hr)).
      unfold opt_char in G. rewrite G. assert (T : take_digits r = ("", r)) by (apply (take_digits_ok "" r); auto). rewrite T.
      destruct (String.eqb_spec d1 ""); [destruct Hne; congruence|]. cbn [andb]. now rewrite !str_app_nil_r.
    + rewrite <- str_app_assoc, take_digits_ok; auto.
      2:{ clear - H1 H2. induction d1; cbn in *; auto. apply andb_true_iff in H1. now rewrite (proj1 H1), IHd1. }
      assert (G : opt_char "." r = ("", r)) by (destruct r; cbn in *; [reflexivity|]; now rewrite (proj2 Hr)).
      rewrite G. assert (T : take_digits r = ("", r)) by (apply (take_digits_ok "" r); auto). rewrite T.
      destruct (String.eqb_spec (d1 ++ d2) "") as [E|E].
      * exfalso. destruct d1; [|discriminate]. cbn in E. congruence.
      * cbn [andb append]. now rewrite str_app_nil_r.
  - cbn [append]. rewrite take_digits_ok by (auto; reflexivity). cbn [opt_char]. rewrite Ascii.eqb_refl.
    rewrite take_digits_ok by auto. destruct (String.eqb_spec d1 ""), (String.eqb_spec d2 ""); cbn [andb]; try reflexivity.
    destruct Hne; congruence.
Qed.
Lemma plain_no_space s : plain_number s -> exists c r, s = String c r /\ is_space c = false.
Proof.
  intros (sg & d1 & dot & d2 & -> & Hs & Hd & H1 & H2 & Hne). apply digits_all in H1, H2.
  destruct Hs as [<-|[<-|[<-|[]]]]; [|eexists; eexists; split; reflexivity..].
  destruct d1 as [|c d1].
  - destruct Hd as [<-|[<-|[]]]; [|eexists; eexists; split; reflexivity]. destruct d2 as [|c d2]; [destruct Hne; congruence|].
    eexists; eexists; split; [reflexivity|]. cbn in H2. apply andb_true_iff in H2. now apply digit_no_space.
  - eexists; eexists; split; [reflexivity|]. cbn in H1. apply andb_true_iff in H1. now apply digit_no_space.
Qed.
Lemma skip_ws_plain s r : plain_number s -> skip_ws (s ++ r) = (s ++ r)%string.
Proof. intros H. destruct (plain_no_space s H) as (c & t & -> & Hc). cbn. now rewrite Hc. Qed.

(** ** Points and triangles *)
Lemma more_tok_ok s r : plain_number s -> stops r -> more_tok (" " ++ s ++ r) = Ok (s, r).
Proof.
  intros H Hr. unfold more_tok. cbn [append ws1]. change (is_space " ") with true. cbn [bind].
  rewrite skip_ws_plain by auto. now apply float_tok_ok.
Qed.
(** What follows a point: a comma or a closing bracket. *)
Definition ends_point (r : string) : Prop := exists t, r = String "," t \/ r = String ")" t.
Lemma ends_point_stops r : ends_point r -> stops r /\ more_tok r = Err ReadError.
Proof. intros (t & [-> | ->]); cbn; auto. Qed.
Lemma stops_blank s : stops (" " ++ s).
Proof. cbn. auto. Qed.

Definition good_point (ts : list string) : Prop := (length ts = 3 \/ length ts = 4) /\ Forall plain_number ts.
Lemma point_tok_ok ts r : good_point ts -> ends_point r -> point_tok (join " " ts ++ r) = Ok (ts, r).
Proof.
  intros [Hl Hp] Hr. destruct (ends_point_stops r Hr) as [Hs Hm].
  destruct ts as [|a [|b [|c ts]]]; cbn in Hl; try lia.
  inversion Hp as [|? ? Pa Hp1]; subst. inversion Hp1 as [|? ? Pb Hp2]; subst. inversion Hp2 as [|? ? Pc Hp3]; subst.
  unfold point_tok. rewrite !join_cons, !str_app_assoc. rewrite float_tok_ok by (auto; apply stops_blank). cbn [bind fst snd].
  rewrite more_tok_ok by (auto; apply stops_blank). cbn [bind fst snd].
  destruct ts as [|d ts].
  - cbn [join String.concat]. rewrite more_tok_ok by auto. cbn [bind fst snd]. now rewrite Hm.
  - destruct ts; [|cbn in Hl; lia]. inversion Hp3; subst. rewrite join_cons, !str_app_assoc.
    rewrite more_tok_ok by (auto; apply stops_blank). cbn [bind fst snd join String.concat]. now rewrite more_tok_ok.
Qed.
Lemma point_first ts r : good_point ts -> skip_ws (join " " ts ++ r) = (join " " ts ++ r)%string.
Proof.
  intros [Hl Hp]. destruct ts as [|a [|b ts]]; cbn in Hl; try lia. rewrite join_cons, str_app_assoc. apply skip_ws_plain. now inversion Hp.
Qed.
Lemma next_point_ok ts r : good_point ts -> ends_point r -> next_point (", " ++ join " " ts ++ r) = Ok (ts, r).
Proof.
  intros H Hr. unfold next_point. cbn [append skip_ws]. change (is_space ",") with false. cbn [char]. rewrite Ascii.eqb_refl. cbn [bind].
  cbn [skip_ws]. change (is_space " ") with true. cbn iota. rewrite point_first by auto. now apply point_tok_ok.
Qed.

Definition ring (a b c d : list string) : string :=
  ("((" ++ join " " a ++ ", " ++ join " " b ++ ", " ++ join " " c ++ ", " ++ join " " d ++ "))")%string.
Lemma triangle_tok_ok a b c d r : good_point a -> good_point b -> good_point c -> good_point d ->
  triangle_tok (ring a b c d ++ r) = Ok ([a; b; c; d], r).
Proof.
  intros Ha Hb Hc Hd. unfold ring. rewrite !str_app_assoc. unfold triangle_tok.
  change ("((" ++ ?x)%string with (String "(" (String "(" x)).
  cbn [char]. rewrite Ascii.eqb_refl. cbn [bind skip_ws]. change (is_space "(") with false. cbn [char]. rewrite Ascii.eqb_refl.
  cbn [bind]. rewrite point_first by auto.
  assert (E : forall t, ends_point (", " ++ t)) by (intros t; eexists; left; reflexivity).
  rewrite point_tok_ok by auto. cbn [bind fst snd]. rewrite next_point_ok by auto. cbn [bind fst snd].
  rewrite next_point_ok by auto. cbn [bind fst snd]. rewrite next_point_ok by (auto; eexists; right; reflexivity). cbn [bind fst snd].
  cbn [append skip_ws]. change (is_space ")") with false. cbn [char]. rewrite Ascii.eqb_refl. cbn [bind skip_ws].
  change (is_space ")") with false. cbn [char]. rewrite Ascii.eqb_refl. reflexivity.
Qed.

Definition good_ring (t : list (list string)) : Prop := length t = 4 /\ Forall good_point t.
Definition ring_str (t : list (list string)) : string :=
  match t with [a; b; c; d] => ring a b c d | _ => "" end.

Lemma triangles_tok_ok ts fuel : Forall good_ring ts -> length ts < fuel ->
  forall pre, pre = "" \/ pre = " " ->
  exists r, triangles_tok fuel (pre ++ join ", " (map ring_str ts) ++ ")") = (ts, r) /\ skip_ws r = ")".
Proof.
  intros H. revert fuel; induction H as [|t ts Ht H IH]; intros fuel Hf pre Hpre; (destruct fuel as [|fuel]; [cbn in Hf; lia|]).
  - cbn [map join String.concat append]. destruct Hpre as [-> | ->]; eexists; split; reflexivity.
  - destruct Ht as [Hl Hg]. destruct t as [|a [|b [|c [|d [|]]]]]; try discriminate.
    assert (Hgs : good_point a /\ good_point b /\ good_point c /\ good_point d).
    { inversion Hg as [|? ? ? G1]; subst. inversion G1 as [|? ? ? G2]; subst. inversion G2 as [|? ? ? G3]; subst.
      inversion G3; subst. auto. }
    destruct Hgs as (Ga & Gb & Gc & Gd).
    assert (Hws : forall r, skip_ws (pre ++ ring a b c d ++ r) = (ring a b c d ++ r)%string)
      by (intros r; destruct Hpre as [-> | ->]; reflexivity).
    cbn [triangles_tok map ring_str]. destruct ts as [|t2 ts].
    + cbn [map join String.concat]. rewrite Hws, triangle_tok_ok by auto. cbn [skip_ws]. change (is_space ")") with false. cbn iota.
      change (snd (opt_char "," ")")) with ")".
      destruct fuel; [cbn in Hf; lia|]. eexists. split; reflexivity.
    + rewrite (map_cons ring_str t2 ts), join_cons, <- (map_cons ring_str t2 ts), !str_app_assoc, Hws, triangle_tok_ok by auto.
      change (", " ++ ?x)%string with (String "," (String " " x)). cbn [skip_ws append]. change (is_space ",") with false. cbn iota.
      cbn [opt_char]. rewrite Ascii.eqb_refl. cbn [snd].
      destruct (IH fuel ltac:(cbn in *; lia) " " (or_intror eq_refl)) as (r & E & Er). cbn [append] in E. rewrite E.
      eexists. split; [reflexivity|exact Er].
Qed.

Lemma ring_str_long t : good_ring t -> 1 <= String.length (ring_str t).
Proof. intros [Hl _]. destruct t as [|a [|b [|c [|d [|]]]]]; try discriminate. cbn. lia. Qed.
Lemma rings_long ts : Forall good_ring ts -> length ts < String.length (join ", " (map ring_str ts) ++ ")").
Proof.
  induction 1 as [|t ts Ht H IH]; [cbn; lia|]. pose proof (ring_str_long t Ht). cbn [length map].
  destruct ts as [|t2 ts].
  - cbn [map join String.concat length]. rewrite string_length_app. cbn. lia.
  - rewrite map_cons, join_cons, <- map_cons, !str_app_assoc, !string_length_app. cbn [length map] in *.
    rewrite string_length_app in IH. cbn [String.length] in *. lia.
Qed.

Lemma tin_ok ts : Forall good_ring ts -> tin_tok ("TIN (" ++ join ", " (map ring_str ts) ++ ")") = Ok ts.
Proof.
  intros H. unfold tin_tok. change ("TIN (" ++ ?x)%string with (String "T" (String "I" (String "N" (String " " (String "(" x))))).
  cbn [char]. rewrite !Ascii.eqb_refl. cbn [bind char]. rewrite Ascii.eqb_refl. cbn [bind char]. rewrite Ascii.eqb_refl.
  cbn [bind skip_ws]. change (is_space " ") with true. change (is_space "(") with false. cbn [char]. rewrite Ascii.eqb_refl. cbn [bind].
  destruct (triangles_tok_ok ts _ H (rings_long ts H) "" (or_introl eq_refl)) as (r & E & Er). cbn [append] in E. rewrite E, Er. reflexivity.
Qed.

Lemma strip_tin s : strip ("TIN (" ++ s ++ ")") = ("TIN (" ++ s ++ ")")%string.
Proof.
  unfold strip. change (lstrip ("TIN (" ++ s ++ ")")) with ("TIN (" ++ s ++ ")")%string.
  rewrite <- str_app_assoc. now apply rstrip_app_word.
Qed.

(** ** The dictionary of points *)
Section Dict.
Context {fl : floats}.
Variable peq : list fl -> list fl -> bool.
Hypothesis peq_refl : forall p, peq p p = true.
Hypothesis peq_sym : forall p q, peq p q = peq q p.
Hypothesis peq_trans : forall p q r, peq p q = true -> peq q r = true -> peq p r = true.

Lemma position_some p pts i : position peq p pts = Some i -> exists q, nth_error pts i = Some q /\ peq q p = true.
Proof.
  revert i; induction pts as [|q pts IH]; intros i; cbn; [discriminate|]. destruct (peq q p) eqn:E.
  - intros [= <-]. exists q; auto.
  - destruct (position peq p pts) as [j|]; cbn; [|discriminate]. intros [= <-]. cbn. now apply IH.
Qed.
Lemma position_none p pts : position peq p pts = None -> Forall (fun q => peq q p = false) pts.
Proof.
  induction pts as [|q pts IH]; cbn; [constructor|]. destruct (peq q p) eqn:E; [discriminate|].
  destruct (position peq p pts); [discriminate|]. constructor; auto.
Qed.

Definition distinct (pts : list (list fl)) : Prop := ForallOrdPairs (fun a b => peq a b = false) pts.
Lemma distinct_snoc pts p : distinct pts -> Forall (fun q => peq q p = false) pts -> distinct (pts ++ [p]).
Proof.
  unfold distinct. induction 1 as [|q pts Hq H IH]; cbn; intros F; [repeat constructor|]. inversion F; subst.
  constructor; auto. apply Forall_app. split; auto.
Qed.

Lemma add_point_ok pts p pts' i : add_point peq pts p = (pts', i) ->
  (exists ext, pts' = pts ++ ext /\ incl ext [p]) /\
  (exists q, nth_error pts' i = Some q /\ peq q p = true) /\
  (distinct pts -> distinct pts').
Proof.
  unfold add_point. destruct (position peq p pts) as [j|] eqn:E; intros [= <- <-].
  - split; [exists []; rewrite app_nil_r; split; [reflexivity|intros x []]|]. split; [now apply position_some|auto].
  - split; [exists [p]; split; [reflexivity|apply incl_refl]|]. split.
    + exists p. rewrite nth_error_app2, Nat.sub_diag by lia. auto.
    + intros H. apply distinct_snoc; auto. now apply position_none.
Qed.

Lemma add_points_ok ps : forall pts pts' is, add_points peq pts ps = (pts', is) ->
  (exists ext, pts' = pts ++ ext /\ incl ext ps) /\
  Forall2 (fun i p => exists q, nth_error pts' i = Some q /\ peq q p = true) is ps /\
  (distinct pts -> distinct pts').
Proof.
  induction ps as [|p ps IH]; intros pts pts' is; cbn [add_points].
  - intros [= <- <-]. split; [exists []; rewrite app_nil_r; split; [reflexivity|intros x []]|]. split; [constructor|auto].
  - destruct (add_point peq pts p) as [pts1 i] eqn:E1. destruct (add_points peq pts1 ps) as [pts2 is2] eqn:E2.
    intros [= <- <-]. apply add_point_ok in E1. destruct E1 as ((e1 & -> & I1) & (q & Hq & Pq) & D1).
    apply IH in E2. destruct E2 as ((e2 & -> & I2) & F2 & D2). split; [|split].
    + exists (e1 ++ e2). split; [now rewrite app_assoc|]. apply incl_app; [|now apply incl_tl].
      intros x Hx. apply I1 in Hx. destruct Hx as [<-|[]]. now left.
    + constructor; auto. exists q. split; auto. rewrite nth_error_app1; auto. apply nth_error_Some. congruence.
    + auto.
Qed.

Definition at_corner (pts : list (list fl)) (i : nat) (p : list fl) : Prop :=
  exists q, nth_error pts i = Some q /\ peq q p = true.
Lemma at_corner_app pts ext i p : at_corner pts i p -> at_corner (pts ++ ext) i p.
Proof. intros (q & H & E). exists q. split; auto. rewrite nth_error_app1; auto. apply nth_error_Some. congruence. Qed.

(** Two indices of equal points are equal. *)
Lemma distinct_same pts i j p : distinct pts -> at_corner pts i p -> at_corner pts j p -> i = j.
Proof.
  intros D (q & Hq & Eq) (q' & Hq' & Eq').
  assert (G : forall i j a b, nth_error pts i = Some a -> nth_error pts j = Some b -> i < j -> peq a b = false).
  { clear - D. induction D as [|x l Hx D IH]; intros i j a b Hi Hj Hij; [destruct i; discriminate|].
    destruct j as [|j]; [lia|]. cbn in Hj. destruct i as [|i]; cbn in Hi.
    - injection Hi as <-. rewrite Forall_forall in Hx. apply Hx. now apply nth_error_In in Hj.
    - apply (IH i j); auto. lia. }
  assert (E : peq q q' = true) by (apply (peq_trans q p q'); auto; now rewrite peq_sym).
  destruct (Nat.lt_trichotomy i j) as [L|[L|L]]; auto.
  - rewrite (G i j q q') in E; auto. discriminate.
  - rewrite peq_sym, (G j i q' q) in E; auto. discriminate.
Qed.

Definition row_shows (pts : list (list fl)) (c : cell) (t : list (list fl)) : Prop :=
  exists is, c = map Z.of_nat is /\ Forall2 (at_corner pts) is t.
Lemma row_shows_app pts ext c t : row_shows pts c t -> row_shows (pts ++ ext) c t.
Proof.
  intros (is & -> & H). exists is. split; auto. induction H; constructor; auto. now apply at_corner_app.
Qed.

Lemma triangles_loop (tris : list (list (list fl))) : floats_ok fl -> forall pts,
  Forall (fun t => length t = 3) tris -> distinct pts ->
  exists ext rows, add_triangles peq pts (map (fun t => map (map ffmt) (t ++ [hd [] t])) tris) = Ok (pts ++ ext, rows) /\
    incl ext (concat tris) /\ distinct (pts ++ ext) /\ Forall2 (row_shows (pts ++ ext)) rows tris.
Proof.
  intros fok. induction tris as [|t tris IH]; intros pts H3 D.
  - exists [], []. cbn. rewrite app_nil_r. repeat split; auto. intros x [].
  - inversion H3 as [|? ? Ht H3']; subst. cbn [map add_triangles].
    assert (Em : mapM parse_floats (map (map ffmt) (t ++ [hd [] t])) = Ok (t ++ [hd [] t])).
    { clear - fok. induction (t ++ [hd [] t]) as [|p l IH]; [reflexivity|]. cbn [map mapM]. rewrite parse_floats_ok by auto.
      cbn [bind]. now rewrite IH. }
    rewrite Em. cbn [bind]. destruct (add_points peq pts (t ++ [hd [] t])) as [pts1 is] eqn:E.
    apply add_points_ok in E. destruct E as ((e1 & -> & I1) & F & D1). specialize (D1 D).
    destruct t as [|a [|b [|c [|]]]]; try discriminate. cbn [hd app] in F.
    inversion F as [|ia ? is1 ? Fa F1]; subst. inversion F1 as [|ib ? is2 ? Fb F2]; subst.
    inversion F2 as [|ic ? is3 ? Fc F3]; subst. inversion F3 as [|ia' ? is4 ? Fa' F4]; subst. inversion F4; subst.
    assert (ia = ia') as <- by (eapply distinct_same; eauto).
    cbn [last hd]. rewrite Nat.eqb_refl.
    destruct (IH (pts ++ e1) H3' D1) as (e2 & rows & E2 & I2 & D2 & F').
    rewrite E2. cbn [bind fst snd]. exists (e1 ++ e2). eexists. rewrite app_assoc. split; [reflexivity|]. split; [|split].
    + cbn [concat]. apply incl_app; [|now apply incl_appr]. apply incl_appl. intros x Hx. apply I1 in Hx. cbn in *. tauto.
    + exact D2.
    + constructor; auto. apply row_shows_app. exists [ia; ib; ic]. split; [reflexivity|]. repeat constructor; auto.
Qed.

(** The same for any parsed text: points are distinct and all indices are in range. *)
Lemma triangles_any ts : Forall (fun t => length t = 4) ts -> forall pts pts' rows, distinct pts ->
  add_triangles peq pts ts = Ok (pts', rows) ->
  (exists ext, pts' = pts ++ ext) /\ distinct pts' /\
  Forall (fun c => length c = 3 /\ Forall (fun i => 0 <= i < Z.of_nat (length pts'))%Z c) rows.
Proof.
  induction 1 as [|t ts Ht H IH]; intros pts pts' rows D; cbn [add_triangles].
  - intros [= <- <-]. split; [exists []; now rewrite app_nil_r|]. split; auto.
  - destruct (mapM parse_floats t) as [ps|] eqn:Em; [|discriminate]. cbn [bind].
    destruct (add_points peq pts ps) as [pts1 is] eqn:E. apply add_points_ok in E. destruct E as ((e1 & -> & I1) & F & D1).
    destruct (Nat.eqb _ _); [|discriminate]. destruct (add_triangles peq (pts ++ e1) ts) as [[p2 r2]|] eqn:E2; [|discriminate].
    cbn [bind fst snd]. intros [= <- <-]. destruct (IH _ _ _ (D1 D) E2) as ((e2 & ->) & D2 & R2).
    split; [exists (e1 ++ e2); now rewrite app_assoc|]. split; auto. constructor; auto.
    apply mapM_length in Em. rewrite Ht in Em. destruct ps as [|a [|b [|c [|d [|]]]]]; try discriminate.
    inversion F as [|ia ? is1 ? Fa F1]; subst. inversion F1 as [|ib ? is2 ? Fb F2]; subst.
    inversion F2 as [|ic ? is3 ? Fc F3]; subst. inversion F3 as [|id ? is4 ? Fd F4]; subst. inversion F4; subst.
    cbn [butlast map]. split; [reflexivity|].
    assert (L : forall i p, (exists q, nth_error (pts ++ e1) i = Some q /\ peq q p = true) ->
                (0 <= Z.of_nat i < Z.of_nat (length ((pts ++ e1) ++ e2)))%Z).
    { intros i p (q & Hq & _). assert (i < length (pts ++ e1)) by (apply nth_error_Some; congruence). rewrite app_length. lia. }
    repeat constructor; eapply L; eauto.
Qed.
End Dict.

Lemma triangle_tok_four s t r : triangle_tok s = Ok (t, r) -> length t = 4.
Proof.
  unfold triangle_tok. repeat match goal with |- context [bind ?x _] => destruct x; cbn [bind]; [|discriminate] end.
  now intros [= <- <-].
Qed.
Lemma triangles_tok_four fuel : forall s, Forall (fun t => length t = 4) (fst (triangles_tok fuel s)).
Proof.
  induction fuel as [|f IH]; intros s; cbn [triangles_tok]; [constructor|].
  destruct (triangle_tok (skip_ws s)) as [[t r]|] eqn:E; [|constructor]. apply triangle_tok_four in E.
  specialize (IH (snd (opt_char "," (skip_ws r)))). destruct (triangles_tok f _). cbn in *. now constructor.
Qed.
Lemma tin_tok_four s ts : tin_tok s = Ok ts -> Forall (fun t => length t = 4) ts.
Proof.
  unfold tin_tok. do 4 (match goal with |- context [bind ?x _] => destruct x; cbn [bind]; [|discriminate] end).
  pose proof (triangles_tok_four (String.length a2) a2) as H. destruct (triangles_tok _ _) as [l r]. 
  destruct (char _ _); [|discriminate]. cbn. now intros [= <-].
Qed.

Section WktFile.
Context {fl : floats}.
Variable peq : list fl -> list fl -> bool.
Hypothesis peq_refl : forall p, peq p p = true.
Hypothesis peq_sym : forall p q, peq p q = peq q p.
Hypothesis peq_trans : forall p q r, peq p q = true -> peq q r = true -> peq p r = true.
Hypothesis fok : floats_ok fl.

Lemma row_corners pts c t : row_shows peq pts c t ->
  exists ps, corners pts c = Some ps /\ Forall2 (fun p q => peq p q = true) ps t.
Proof.
  intros (is & -> & H). induction H as [|i p is t (q & Hq & E) H IH]; [exists []; split; [reflexivity|constructor]|].
  destruct IH as (ps & E1 & E2). exists (q :: ps). split; [|now constructor]. unfold corners in *. cbn [map mapO].
  destruct (Z.leb_spec 0 (Z.of_nat i)); [|lia]. rewrite Nat2Z.id, Hq. cbn. now rewrite E1.
Qed.

Theorem wkt_roundtrip k (pts : list (list fl)) bs (tris : list (list (list fl))) :
  k = 3 \/ k = 4 ->
  Forall2 (fun c t => length c = 3 /\ corners pts c = Some t) (cells_of "triangle" bs) tris ->
  Forall (Forall (fun p => length p = k /\ Forall (fun x => plain_number (ffmt x)) p)) tris ->
  exists text, write_wkt pts bs = Ok text /\
    exists pts' rows, read_wkt peq text = Ok (pts', [Block "triangle" rows]) /\
      ForallOrdPairs (fun p q => peq p q = false) pts' /\ incl pts' (concat tris) /\
      Forall2 (fun c t => exists ps, corners pts' c = Some ps /\ Forall2 (fun p q => peq p q = true) ps t) rows tris.
Proof.
  intros Hk Ht Hp. unfold write_wkt. destruct (get_cells_type_spec "triangle" bs) as [G _].
  rewrite G by (right; unfold dkeys; cbn; tauto). clear G. cbn [bind].
  assert (L3 : Forall (fun t => length t = 3) tris).
  { clear - Ht. induction Ht as [|c t cs ts [H1 H2] F IH]; constructor; auto. now rewrite (corners_length _ _ _ H2). }
  assert (M : mapM (gather pts) (cells_of "triangle" bs) = Ok tris).
  { clear - Ht. induction Ht as [|c t cs ts [_ H] F IH]; [reflexivity|]. cbn [mapM]. rewrite (corners_gather _ _ _ H).
    cbn [bind]. now rewrite IH. }
  rewrite M. cbn [bind].
  set (rings := map (fun t => map (map ffmt) (t ++ [hd [] t])) tris).
  assert (MS : mapM triangle_str tris = Ok (map ring_str rings)).
  { unfold rings. rewrite map_map. clear - L3. induction L3 as [|t ts Ht H IH]; [reflexivity|].
    destruct t as [|a [|b [|c [|]]]]; try discriminate. cbn [mapM triangle_str bind]. rewrite IH. reflexivity. }
  rewrite MS. cbn [bind]. eexists. split; [reflexivity|].
  assert (Gr : Forall good_ring rings).
  { unfold rings. clear - Hp L3 Hk. induction L3 as [|t ts Ht H IH]; [constructor|]. inversion Hp as [|? ? Pt Hp']; subst.
    cbn [map]. constructor; [|auto]. split; [rewrite map_length, app_length; cbn; lia|].
    destruct t as [|a t]; [discriminate|]. apply Forall_map. apply Forall_app. 
    assert (Q : Forall (fun p : list fl => good_point (map ffmt p)) (a :: t)).
    { eapply Forall_impl; [|exact Pt]. intros p [Hl Hn]. split; [rewrite map_length; lia|]. now apply Forall_map. }
    split; [exact Q|]. constructor; [|constructor]. now inversion Q. }
  unfold read_wkt. rewrite strip_tin, tin_ok by auto. cbn [bind].
  destruct (triangles_loop peq peq_refl peq_sym peq_trans tris fok [] L3) as (pts' & rows & E & I & D & F); [constructor|].
  unfold rings. rewrite E. cbn [bind fst snd app] in *. exists pts', rows.
  replace (forallb _ pts') with true.
  - split; [reflexivity|]. split; [exact D|]. split; [exact I|]. clear - F peq_refl peq_sym peq_trans fok. induction F; constructor; auto. now apply row_corners.
  - symmetry. apply forallb_forall. 
    assert (Q : forall p, In p pts' -> length p = k).
    { intros p Hin. apply I in Hin. apply in_concat in Hin. destruct Hin as (t & Hin & Hpt). rewrite Forall_forall in Hp.
      specialize (Hp t Hin). rewrite Forall_forall in Hp. now apply Hp. }
    intros p Hin. destruct pts' as [|p0 pts']; [destruct Hin|]. cbn [hd]. rewrite (Q p0), (Q p) by (auto; now left). apply Nat.eqb_refl.
Qed.

Theorem wkt_accepts s pts bs : read_wkt peq s = Ok (pts, bs) ->
  exists rows k, bs = [Block "triangle" rows] /\ ForallOrdPairs (fun p q => peq p q = false) pts /\
    Forall (fun p => length p = k) pts /\
    Forall (fun c => length c = 3 /\ Forall (fun i => 0 <= i < Z.of_nat (length pts))%Z c) rows.
Proof.
  unfold read_wkt. destruct (tin_tok (strip s)) as [ts|] eqn:E; [|discriminate]. cbn [bind]. apply tin_tok_four in E.
  destruct (add_triangles peq [] ts) as [[p r]|] eqn:E2; [|discriminate]. cbn [bind fst snd].
  destruct (forallb _ p) eqn:Ef; [|discriminate]. intros [= <- <-].
  apply (triangles_any peq peq_refl peq_sym peq_trans) in E2; [|exact E|constructor]. destruct E2 as (_ & D & R).
  exists r, (length (hd [] p)). repeat split; auto. apply Forall_forall. intros q Hq. rewrite forallb_forall in Ef.
  specialize (Ef q Hq). now apply Nat.eqb_eq in Ef.
Qed.
End WktFile.

Lemma all_digits_digits s : all_digits s = true -> digits s.
Proof.
  unfold digits. induction s as [|a s IH]; intros H c Hc; [destruct Hc|]. cbn [all_digits list_ascii_of_string] in *.
  apply andb_true_iff in H. destruct H as [Ha Hs]. destruct Hc as [<-|Hc]; [|now apply IH].
  clear - Ha. destruct a as [[] [] [] [] [] [] [] []]; vm_compute in Ha; try discriminate; cbn; tauto.
Qed.
Lemma plain_str_of_Z z : plain_number (str_of_Z z).
Proof.
  assert (G : forall n, digits (str_of_N n) /\ str_of_N n <> "").
  { intros n. split; [apply all_digits_digits, str_of_N_all_digits|apply str_of_N_nonempty]. }
  assert (E : digits "") by (intros c []).
  destruct z as [|p|p].
  - exists "", "0", "", "". cbn. repeat split; auto; [apply (all_digits_digits "0"); reflexivity|left; discriminate].
  - destruct (G (Npos p)). exists "", (str_of_N (Npos p)), "", "". cbn [str_of_Z append]. rewrite str_app_nil_r. cbn. repeat split; auto.
  - destruct (G (Npos p)). exists "-", (str_of_N (Npos p)), "", "". cbn [str_of_Z append]. rewrite str_app_nil_r. cbn. repeat split; auto.
Qed.
