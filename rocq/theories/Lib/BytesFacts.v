From Verif.Lib Require Import Base Facts Facts2 Bytes.
From Coq Require Import NArith ZifyBool ZifyN ZifyNat.
Ltac Zify.zify_post_hook ::= Z.div_mod_to_equations.

(** ** Integers *)
Lemma le_bytes_length w n : length (le_bytes w n) = w.
Proof. revert n; induction w; intros; cbn; auto. Qed.
Lemma uint_bytes_length big w n : length (uint_bytes big w n) = w.
Proof. unfold uint_bytes. destruct big; rewrite ?rev_length; apply le_bytes_length. Qed.
Lemma sint_bytes_length big w n : length (sint_bytes big w n) = w.
Proof. apply uint_bytes_length. Qed.
Lemma le_bytes_ok w n : Forall is_byte (le_bytes w n).
Proof. revert n; induction w; intros; cbn [le_bytes]; constructor; auto. unfold is_byte. lia. Qed.
Lemma uint_bytes_ok big w n : Forall is_byte (uint_bytes big w n).
Proof. unfold uint_bytes. destruct big; [apply Forall_rev|]; apply le_bytes_ok. Qed.
Lemma sint_bytes_ok big w n : Forall is_byte (sint_bytes big w n).
Proof. apply uint_bytes_ok. Qed.

Lemma capacity_S w : capacity (S w) = (256 * capacity w)%N.
Proof. unfold capacity. rewrite Nat2N.inj_succ, N.pow_succ_r'. reflexivity. Qed.

Lemma le_value_bytes w n : (n < capacity w)%N -> le_value (le_bytes w n) = n.
Proof.
  revert n; induction w as [|w IH]; intros n H.
  - change (capacity 0) with 1%N in H. cbn. lia.
  - cbn [le_bytes le_value]. rewrite capacity_S in H. rewrite IH; lia.
Qed.
Lemma uint_value_bytes big w n : (n < capacity w)%N -> uint_value big (uint_bytes big w n) = n.
Proof.
  intros H. unfold uint_value, uint_bytes. destruct big; rewrite ?rev_involutive; now apply le_value_bytes.
Qed.

Lemma le_value_lt l : Forall is_byte l -> (le_value l < capacity (length l))%N.
Proof.
  induction 1 as [|b l Hb H IH]; [reflexivity|]. cbn [le_value length]. rewrite capacity_S. unfold is_byte in Hb. lia.
Qed.

Lemma capacity_pos w : (0 < capacity w)%N.
Proof. unfold capacity. apply N.neq_0_lt_0. apply N.pow_nonzero. discriminate. Qed.

(** The range of a signed integer of [w] bytes. *)
Definition sint_range (w : nat) (z : Z) : Prop := (- Z.of_N (capacity w) <= 2 * z < Z.of_N (capacity w))%Z.

Lemma sint_value_bytes big w z : sint_range w z -> sint_value big (sint_bytes big w z) = z.
Proof.
  unfold sint_range, sint_value. intros H. rewrite sint_bytes_length. unfold sint_bytes.
  pose proof (capacity_pos w) as Hp. set (c := capacity w) in *.
  assert (Hm : (0 <= z mod Z.of_N c < Z.of_N c)%Z) by (apply Z.mod_pos_bound; lia).
  rewrite uint_value_bytes by (fold c; lia). rewrite Z2N.id by lia.
  assert (E : (z mod Z.of_N c = z \/ z mod Z.of_N c = z + Z.of_N c)%Z).
  { destruct (Z.leb_spec 0 z).
    - left. apply Z.mod_small. lia.
    - right. rewrite <- (Z.mod_add z 1) by lia. rewrite Z.mul_1_l. apply Z.mod_small. lia. }
  destruct E as [E|E]; rewrite E in *; destruct (Z.ltb_spec (2 * z) (Z.of_N c)) || idtac;
    destruct (Z.ltb_spec (2 * (z + Z.of_N c)) (Z.of_N c)) || idtac; lia.
Qed.

(** ** Chunks *)
Lemma chunks_fuel_concat {A} f k (items : list (list A)) :
  0 < k -> Forall (fun x => length x = k) items -> length (concat items) <= f ->
  chunks_fuel f k (concat items) = items.
Proof.
  intros Hk H. revert f; induction H as [|x items Hx H IH]; intros f Hf.
  - destruct f; reflexivity.
  - cbn [concat] in *. rewrite app_length in Hf. destruct f as [|f]; [lia|].
    destruct x as [|a x']; [cbn in Hx; lia|]. cbn [chunks_fuel app].
    change (a :: x' ++ concat items) with ((a :: x') ++ concat items).
    set (x := a :: x') in *.
    rewrite firstn_app, skipn_app, Hx, Nat.sub_diag, skipn_all2, firstn_all2 by lia. cbn [firstn skipn app].
    rewrite app_nil_r, IH by lia. reflexivity.
Qed.
Lemma chunks_concat {A} k (items : list (list A)) :
  0 < k -> Forall (fun x => length x = k) items -> chunks k (concat items) = items.
Proof. intros. unfold chunks. now apply chunks_fuel_concat. Qed.

Lemma concat_uniform_length {A} k (items : list (list A)) :
  Forall (fun x => length x = k) items -> length (concat items) = k * length items.
Proof. induction 1; cbn; [lia|]. rewrite app_length. lia. Qed.

Lemma frombuffer_concat k items : 0 < k -> Forall (fun x => length x = k) items ->
  frombuffer k (concat items) = Ok items.
Proof.
  intros Hk H. unfold frombuffer. rewrite concat_uniform_length with (k := k) by auto.
  rewrite Nat.mul_comm, Nat.mod_mul by lia. cbn. now rewrite chunks_concat.
Qed.

Lemma chunks_fuel_back {A} f n (l : list A) : 0 < n -> length l <= f -> concat (chunks_fuel f n l) = l.
Proof.
  intros Hn. revert l; induction f as [|f IH]; intros l Hl; [destruct l; [reflexivity|cbn in Hl; lia]|].
  destruct l as [|x l]; [reflexivity|]. cbn [chunks_fuel]. set (y := x :: l) in *. cbn [concat].
  rewrite IH; [apply firstn_skipn|]. rewrite skipn_length. unfold y in *. cbn [length] in *. lia.
Qed.
Lemma chunks_back {A} n (l : list A) : 0 < n -> concat (chunks n l) = l.
Proof. intros. unfold chunks. now apply chunks_fuel_back. Qed.

Lemma chunks_fuel_length {A} f n (l : list A) : 0 < n -> length l <= f ->
  length (chunks_fuel f n l) = (length l + (n - 1)) / n.
Proof.
  intros Hn. revert l; induction f as [|f IH]; intros l Hl.
  - destruct l; [|cbn in Hl; lia]. cbn. symmetry. apply Nat.div_small. lia.
  - destruct l as [|x l]; [cbn; symmetry; apply Nat.div_small; lia|].
    cbn [chunks_fuel length]. set (y := x :: l) in *. rewrite IH; rewrite skipn_length; [|unfold y in *; cbn [length] in *; lia].
    assert (Hy : length y = S (length l)) by reflexivity. rewrite <- Hy.
    destruct (Nat.le_gt_cases n (length y)) as [Hle|Hgt].
    + replace (length y + (n - 1)) with ((length y - n + (n - 1)) + 1 * n) by lia.
      rewrite Nat.div_add by lia. lia.
    + replace (length y - n) with 0 by lia. rewrite (Nat.div_small (0 + (n - 1))) by lia.
      apply Nat.div_unique with (r := length y - 1); lia.
Qed.

Lemma chunks_fuel_Forall {A} (P : A -> Prop) f n (l : list A) : Forall P l -> Forall (Forall P) (chunks_fuel f n l).
Proof.
  revert l; induction f as [|f IH]; intros l H; [constructor|]. destruct l as [|x l]; [constructor|].
  cbn [chunks_fuel]. set (y := x :: l) in *. constructor.
  - rewrite <- (firstn_skipn n y), Forall_app in H. tauto.
  - apply IH. rewrite <- (firstn_skipn n y), Forall_app in H. tauto.
Qed.

(** Each chunk of a buffer is a whole number of items if the chunk size is. *)
Lemma chunks_fuel_items {A} f k q (items : list (list A)) : 0 < k -> 0 < q ->
  Forall (fun x => length x = k) items -> length (concat items) <= f ->
  chunks_fuel f (k * q) (concat items) = map (@concat A) (chunks_fuel f q items).
Proof.
  intros Hk Hq H. revert items H; induction f as [|f IH]; intros items H Hf; [reflexivity|].
  destruct items as [|x items]; [reflexivity|].
  inversion H as [|? ? Hx H']; subst. destruct x as [|a x']; [cbn in Hk; lia|].
  set (k := length (a :: x')) in *. set (y := (a :: x') :: items) in *.
  assert (E : chunks_fuel (S f) (k * q) (concat y) = firstn (k * q) (concat y) :: chunks_fuel f (k * q) (skipn (k * q) (concat y))) by reflexivity.
  rewrite E. assert (E2 : chunks_fuel (S f) q y = firstn q y :: chunks_fuel f q (skipn q y)) by reflexivity.
  rewrite E2. cbn [map].
  assert (G : forall (z : list (list A)) m, Forall (fun x => length x = k) z ->
     firstn (k * m) (concat z) = concat (firstn m z) /\ skipn (k * m) (concat z) = concat (skipn m z)).
  { clear. induction z as [|b z IH]; intros m Hz; [rewrite firstn_nil, skipn_nil; now rewrite !firstn_nil, !skipn_nil|].
    inversion Hz as [|? ? Hb Hz']; subst. destruct m as [|m]; [rewrite Nat.mul_0_r; auto|].
    cbn [concat firstn skipn]. destruct (IH m Hz') as [I1 I2].
    rewrite firstn_app, skipn_app, Hb. rewrite firstn_all2, skipn_all2 by (rewrite Hb; lia).
    replace (k * S m - k) with (k * m) by lia. rewrite I1, I2. auto. }
  destruct (G y q) as [G1 G2]; [exact H|]. rewrite G1, G2. f_equal. apply IH.
  - unfold y in *. rewrite <- (firstn_skipn q ((a :: x') :: items)), Forall_app in H. tauto.
  - rewrite <- G2, skipn_length. unfold y in *. cbn [concat app length] in *. assert (0 < k * q) by nia. lia.
Qed.

(** ** Base64 *)
Lemma b64_val_char n : (n < 64)%N -> b64_val (b64_char n) = Some n /\ Ascii.eqb (b64_char n) b64_pad = false.
Proof.
  intros H.
  assert (G : forallb (fun k => match b64_val (b64_char (N.of_nat k)) with Some m => N.eqb m (N.of_nat k) | None => false end
       && negb (Ascii.eqb (b64_char (N.of_nat k)) b64_pad)) (seq 0 64) = true) by (vm_compute; reflexivity).
  rewrite forallb_forall in G. specialize (G (N.to_nat n)). rewrite N2Nat.id in G.
  rewrite in_seq in G. specialize (G ltac:(lia)). apply andb_true_iff in G. destruct G as [G1 G2].
  destruct (b64_val (b64_char n)) as [m|]; [|discriminate]. apply N.eqb_eq in G1. subst.
  split; auto. now apply negb_true_iff in G2.
Qed.

Lemma list3_ind {A} (P : list A -> Prop) :
  P [] -> (forall a, P [a]) -> (forall a b, P [a; b]) -> (forall a b c l, P l -> P (a :: b :: c :: l)) ->
  forall l, P l.
Proof.
  intros H0 H1 H2 H3.
  assert (G : forall n l, length l <= n -> P l).
  { induction n as [|n IH]; intros l Hl.
    - destruct l; [auto|cbn in Hl; lia].
    - destruct l as [|a [|b [|c l]]]; auto. apply H3. apply IH. cbn in Hl. lia. }
  intros l. apply (G (length l)). lia.
Qed.

Ltac dec_tac := intros H; destruct (b64_val_char _ H) as [H1 H2]; cbn [b64decode_from]; rewrite H1, H2; reflexivity.
Lemma dec0 n left pads s : (n < 64)%N -> b64decode_from 0 left pads (b64_char n :: s) = b64decode_from 1 n 0 s.
Proof. dec_tac. Qed.
Lemma dec1 n left pads s : (n < 64)%N -> b64decode_from 1 left pads (b64_char n :: s) =
  do r <- b64decode_from 2 (n mod 16)%N 0 s; Ok ((left * 4 + n / 16)%N :: r).
Proof. dec_tac. Qed.
Lemma dec2 n left pads s : (n < 64)%N -> b64decode_from 2 left pads (b64_char n :: s) =
  do r <- b64decode_from 3 (n mod 4)%N 0 s; Ok ((left * 16 + n / 4)%N :: r).
Proof. dec_tac. Qed.
Lemma dec3 n left pads s : (n < 64)%N -> b64decode_from 3 left pads (b64_char n :: s) =
  do r <- b64decode_from 0 0%N 0 s; Ok ((left * 64 + n)%N :: r).
Proof. dec_tac. Qed.

(** Decoding an encoded string followed by anything: a complete group continues, an
    incomplete one ends with padding, where decoding stops. *)
Lemma b64_roundtrip l tail : Forall is_byte l ->
  b64decode (b64encode l ++ tail) =
  (if Nat.eqb (length l mod 3) 0 then do r <- b64decode tail; Ok (l ++ r) else Ok l).
Proof.
  induction l as [|a|a b|a b c l IH] using list3_ind; intros H; unfold b64decode in *.
  - cbn. destruct (b64decode_from 0 0 0 tail); reflexivity.
  - inversion H as [|? ? Ha _]; subst. unfold is_byte in *.
    cbn [b64encode app]. rewrite dec0, dec1 by lia.
    change (b64decode_from 2 ((a mod 4 * 16) mod 16) 0 (b64_pad :: b64_pad :: tail)) with (@Ok bytes []). cbn [bind].
    change (Nat.eqb (length [a] mod 3) 0) with false. cbn iota. do 2 f_equal. lia.
  - inversion H as [|? ? Ha H']; subst. inversion H' as [|? ? Hb _]; subst. unfold is_byte in *.
    cbn [b64encode app]. rewrite dec0, dec1, dec2 by lia.
    change (b64decode_from 3 ((b mod 16 * 4) mod 4) 0 (b64_pad :: tail)) with (@Ok bytes []). cbn [bind].
    change (Nat.eqb (length [a; b] mod 3) 0) with false. cbn iota. do 2 f_equal; [lia|f_equal; lia].
  - inversion H as [|? ? Ha H']; subst. inversion H' as [|? ? Hb H'']; subst. inversion H'' as [|? ? Hc Hl]; subst.
    unfold is_byte in *. cbn [b64encode app]. rewrite dec0, dec1, dec2, dec3 by lia. rewrite IH by auto.
    replace (length (a :: b :: c :: l) mod 3) with (length l mod 3)
      by (cbn [length]; replace (S (S (S (length l)))) with (length l + 1 * 3) by lia; now rewrite Nat.mod_add).
    assert (E1 : (a / 4 * 4 + (a mod 4 * 16 + b / 16) / 16)%N = a) by lia.
    assert (E2 : ((a mod 4 * 16 + b / 16) mod 16 * 16 + (b mod 16 * 4 + c / 64) / 4)%N = b) by lia.
    assert (E3 : ((b mod 16 * 4 + c / 64) mod 4 * 64 + c mod 64)%N = c) by lia.
    rewrite E1, E2, E3.
    destruct (Nat.eqb (length l mod 3) 0); [destruct (b64decode_from 0 0 0 tail)|]; reflexivity.
Qed.

Lemma b64_roundtrip_nil l : Forall is_byte l -> b64decode (b64encode l) = Ok l.
Proof.
  intros H. rewrite <- (app_nil_r (b64encode l)), b64_roundtrip by auto.
  destruct (Nat.eqb (length l mod 3) 0); auto. cbn. now rewrite app_nil_r.
Qed.

Lemma b64encode_length l : length (b64encode l) = 4 * ((length l + 2) / 3).
Proof.
  induction l as [|a|a b|a b c l IH] using list3_ind; try reflexivity.
  cbn [b64encode length]. rewrite IH. replace (S (S (S (length l))) + 2) with (length l + 2 + 1 * 3) by lia.
  rewrite Nat.div_add by lia. lia.
Qed.

(** The first groups of an encoded string. *)
Lemma b64encode_firstn l k : 3 * k <= length l -> firstn (4 * k) (b64encode l) = b64encode (firstn (3 * k) l).
Proof.
  revert k; induction l as [|a|a b|a b c l IH] using list3_ind; intros k Hk; cbn in Hk;
    try (assert (k = 0) by lia; subst; reflexivity).
  destruct k as [|k]; [reflexivity|]. replace (4 * S k) with (S (S (S (S (4 * k))))) by lia.
  replace (3 * S k) with (S (S (S (3 * k)))) by lia. cbn [b64encode firstn]. now rewrite IH by lia.
Qed.

Lemma b64encode_app l1 l2 : length l1 mod 3 = 0 -> b64encode (l1 ++ l2) = b64encode l1 ++ b64encode l2.
Proof.
  induction l1 as [|a|a b|a b c l IH] using list3_ind; intros H; try reflexivity; try discriminate.
  cbn [app b64encode]. rewrite IH; [reflexivity|].
  cbn [length] in H. replace (S (S (S (length l)))) with (length l + 1 * 3) in H by lia. now rewrite Nat.mod_add in H.
Qed.

Lemma chunks_fuel_exact {A} f k n (l : list A) : 0 < k -> length l = k * n -> length l <= f ->
  Forall (fun x => length x = k) (chunks_fuel f k l).
Proof.
  intros Hk. revert n l; induction f as [|f IH]; intros n l Hl Hf; [constructor|].
  destruct l as [|x l]; [constructor|]. cbn [chunks_fuel]. set (y := x :: l) in *.
  destruct n as [|n]; [cbn in Hl; lia|]. assert (k <= length y) by nia. constructor.
  - rewrite firstn_length. lia.
  - apply (IH n); rewrite skipn_length; [nia|]. subst y. cbn [length] in *. lia.
Qed.
Lemma chunks_exact {A} k (l : list A) n : 0 < k -> length l = k * n -> Forall (fun x => length x = k) (chunks k l).
Proof. intros. unfold chunks. now apply (chunks_fuel_exact _ _ n). Qed.
