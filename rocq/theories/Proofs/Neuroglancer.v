(** Proofs about Model/Neuroglancer.v. *)
From Verif.Lib Require Import Base Facts Facts2 Bytes BytesFacts File.
From Verif.Model Require Import Core Neuroglancer.
From Verif.Spec Require Import Core Surface.
From Verif.Proofs Require Import Core CoreMisc Vtu.
From Coq Require Import NArith ZifyBool ZifyN ZifyNat.

Section NG.
Context {F : Type}.
Variable f4 : codec F.
Hypothesis width : codec_width f4 4.

Lemma flat_rows {A B} (e : A -> list B) w k (rows : list (list A)) :
  (forall a, length (e a) = w) -> 0 < w -> Forall (fun r => length r = k) rows ->
  chunks w (flat_map (flat_map e) rows) = map e (concat rows) /\
  length (flat_map (flat_map e) rows) = w * (k * length rows).
Proof.
  intros He Hw Hr.
  assert (E : flat_map (flat_map e) rows = concat (map e (concat rows))).
  { clear. induction rows as [|r rows IH]; [reflexivity|]. cbn [flat_map concat]. rewrite IH, map_app, concat_app. f_equal.
    apply flat_map_concat_map. }
  assert (Hu : Forall (fun x => length x = w) (map e (concat rows))).
  { apply Forall_map, Forall_forall. intros; apply He. }
  rewrite E. split; [now apply chunks_concat|]. rewrite (concat_uniform_length w), map_length by auto.
  now rewrite (concat_uniform_length k).
Qed.

Lemma written_triangles bs :
  flat_map (fun b => flat_map (flat_map (sint_bytes false 4)) (bdata b)) (filter (fun b => String.eqb (btype b) "triangle") bs) =
  flat_map (flat_map (sint_bytes false 4)) (cells_of "triangle" bs).
Proof.
  rewrite cells_of_concat. unfold is_type. induction (filter _ bs) as [|b l IH]; [reflexivity|]. cbn [flat_map map concat]. now rewrite IH, flat_map_app.
Qed.

Lemma u4_wrap z : (0 <= z < 2 ^ 32)%Z -> Z.of_N (uint_value false (sint_bytes false 4 z)) = z.
Proof.
  intros H. unfold sint_bytes. change (capacity 4) with 4294967296%N. change (2 ^ 32)%Z with 4294967296%Z in H.
  rewrite uint_value_bytes; [rewrite Z.mod_small; lia|]. rewrite Z.mod_small by lia. change (capacity 4) with 4294967296%N. lia.
Qed.

Theorem ng_roundtrip (pts : list (list F)) bs :
  (N.of_nat (length pts) < 2 ^ 32)%N ->
  Forall (fun p => length p = 3 /\ Forall (exact f4) p) pts ->
  Forall (fun c => length c = 3 /\ Forall (fun i => 0 <= i < Z.of_nat (length pts))%Z c) (cells_of "triangle" bs) ->
  exists file, write_neuroglancer f4 pts bs = Ok file /\
    read_neuroglancer f4 file = Ok (pts, [Block "triangle" (cells_of "triangle" bs)]).
Proof.
  intros Hn Hp Ht. unfold write_neuroglancer. change (2 ^ 32)%N with (capacity 4) in Hn.
  destruct (N.leb_spec (capacity 4) (N.of_nat (length pts))); [lia|]. eexists. split; [reflexivity|].
  rewrite written_triangles. set (tris := cells_of "triangle" bs) in *.
  unfold read_neuroglancer. cbv zeta. set (hd := uint_bytes false 4 (N.of_nat (length pts))).
  assert (Hh : length hd = 4) by apply uint_bytes_length.
  destruct (flat_rows (enc f4) 4 3 pts) as [P1 P2]; [exact width|lia|eapply Forall_impl; [|exact Hp]; cbn; tauto|].
  destruct (flat_rows (sint_bytes false 4) 4 3 tris) as [T1 T2];
    [intros; apply sint_bytes_length|lia|eapply Forall_impl; [|exact Ht]; cbn; tauto|].
  set (pb := flat_map (flat_map (enc f4)) pts) in *. set (tb := flat_map (flat_map (sint_bytes false 4)) tris) in *.
  destruct (Nat.ltb_spec (length (hd ++ pb ++ tb)) 4); [rewrite app_length in *; lia|].
  rewrite (firstn_exact hd), (skipn_exact hd) by auto. unfold hd. rewrite uint_value_bytes by auto.
  rewrite app_length, P2, T2.
  destruct (N.ltb_spec (N.of_nat (4 * (3 * length pts) + 4 * (3 * length tris))) (12 * N.of_nat (length pts))); [lia|].
  replace (N.to_nat (12 * N.of_nat (length pts))) with (length pb) by lia.
  rewrite skipn_app, firstn_app, skipn_all, firstn_all, Nat.sub_diag. cbn [firstn skipn app]. rewrite app_nil_r.
  rewrite T2. replace (4 * (3 * length tris)) with (length tris * 12) by lia. rewrite Nat.mod_mul by lia. cbn [Nat.eqb negb].
    rewrite T1, P1, !map_map.
  assert (ET : chunks 3 (map (fun w => Z.of_N (uint_value false (sint_bytes false 4 w))) (concat tris)) = tris).
  { rewrite (map_ext_in _ (fun z => z)), map_id.
    - apply chunks_concat; [lia|]. eapply Forall_impl; [|exact Ht]; cbn; tauto.
    - intros z Hz. apply in_concat in Hz. destruct Hz as (c & Hc & Hz). rewrite Forall_forall in Ht.
      destruct (Ht c Hc) as [_ Hr]. rewrite Forall_forall in Hr. specialize (Hr z Hz). apply u4_wrap.
      change (capacity 4) with 4294967296%N in Hn. change (2 ^ 32)%Z with 4294967296%Z. lia. }
  rewrite ET. replace (existsb _ tris) with false.
  - f_equal. f_equal. rewrite (map_ext_in _ (fun v => v)), map_id.
    + apply chunks_concat; [lia|]. eapply Forall_impl; [|exact Hp]; cbn; tauto.
    + intros v Hv. apply in_concat in Hv. destruct Hv as (p & Hp' & Hv). rewrite Forall_forall in Hp.
      destruct (Hp p Hp') as [_ He]. rewrite Forall_forall in He. now apply He.
  - symmetry. apply not_true_is_false. intros E. apply existsb_exists in E. destruct E as (c & Hc & E).
    apply existsb_exists in E. destruct E as (i & Hi & E). rewrite Forall_forall in Ht. destruct (Ht c Hc) as [_ Hr].
    rewrite Forall_forall in Hr. specialize (Hr i Hi). lia.
Qed.

(** What every accepted file satisfies. *)
Theorem ng_accepts b pts bs : read_neuroglancer f4 b = Ok (pts, bs) ->
  exists tri, bs = [Block "triangle" tri] /\
    Forall (fun p => length p = 3) pts /\ Forall (fun c => length c = 3) tri /\
    length b = 4 + 12 * length pts + 12 * length tri /\
    uint_value false (firstn 4 b) = N.of_nat (length pts) /\
    tri = chunks 3 (map (fun w => Z.of_N (uint_value false w)) (chunks 4 (skipn (4 + 12 * length pts) b))) /\
    Forall (Forall (fun i => 0 <= i <= Z.of_nat (length pts))%Z) tri.
Proof.
  unfold read_neuroglancer. destruct (Nat.ltb_spec (length b) 4); [discriminate|].
  set (n := uint_value false (firstn 4 b)). set (rest := skipn 4 b).
  assert (Hl : length rest = length b - 4) by apply skipn_length.
  destruct (N.ltb_spec (N.of_nat (length rest)) (12 * n)); [discriminate|].
  set (k := N.to_nat (12 * n)). set (tail := skipn k rest).
  assert (Hk : k = 12 * N.to_nat n) by lia.
  assert (Ht : length tail = length rest - k) by apply skipn_length.
  destruct (Nat.eqb_spec (length tail mod 12) 0) as [Hm|]; [|discriminate]. cbn [negb].
  set (tri := chunks 3 _). destruct (existsb _ tri) eqn:Ee; [discriminate|]. intros E. injection E as E1 E2.
  assert (Lf : length (firstn k rest) = k) by (rewrite firstn_length; lia).
  assert (Lc : length (map (dec f4) (chunks 4 (firstn k rest))) = 3 * N.to_nat n).
  { rewrite map_length. unfold chunks. rewrite chunks_fuel_length by lia. rewrite Lf, Hk.
    replace (12 * N.to_nat n + (4 - 1)) with (3 + (3 * N.to_nat n) * 4) by lia. rewrite Nat.div_add by lia. reflexivity. }
  assert (Lp : length pts = N.to_nat n).
  { rewrite <- E1. unfold chunks at 1. rewrite chunks_fuel_length by lia. rewrite Lc.
    replace (3 * N.to_nat n + (3 - 1)) with (2 + N.to_nat n * 3) by lia. rewrite Nat.div_add by lia. reflexivity. }
  assert (Lt : length (map (fun w => Z.of_N (uint_value false w)) (chunks 4 tail)) = 3 * (length tail / 12)).
  { rewrite map_length. unfold chunks. rewrite chunks_fuel_length by lia.
    pose proof (Nat.div_mod_eq (length tail) 12). rewrite Hm in H1. rewrite H1 at 1.
    replace (12 * (length tail / 12) + 0 + (4 - 1)) with (3 + (3 * (length tail / 12)) * 4) by lia.
    rewrite Nat.div_add by lia. reflexivity. }
  assert (Ltri : length tri = length tail / 12).
  { unfold tri. unfold chunks at 1. rewrite chunks_fuel_length by lia. rewrite Lt.
    replace (3 * (length tail / 12) + (3 - 1)) with (2 + (length tail / 12) * 3) by lia. rewrite Nat.div_add by lia. reflexivity. }
  assert (Lt12 : length tail = 12 * length tri).
  { rewrite Ltri. pose proof (Nat.div_mod_eq (length tail) 12). lia. }
  exists tri. split; [now symmetry|]. split; [|split; [|split; [|split; [|split]]]].
  - rewrite <- E1. apply (chunks_exact 3 _ (N.to_nat n)); [lia|]. lia.
  - apply (chunks_exact 3 _ (length tail / 12)); lia.
  - lia.
  - lia.
  - unfold tri. do 3 f_equal. unfold tail, rest. rewrite skipn_skipn. f_equal. lia.
  - apply Forall_forall. intros c Hc. apply Forall_forall. intros i Hi. split.
    + assert (Hin : In i (concat tri)) by (apply in_concat; eauto). unfold tri in Hin. rewrite chunks_back in Hin by lia.
      apply in_map_iff in Hin. destruct Hin as (w & <- & _). lia.
    + destruct (Z.ltb_spec (Z.of_N n) i); [|lia]. exfalso. apply not_true_iff_false in Ee. apply Ee.
      apply existsb_exists. exists c. split; auto. apply existsb_exists. exists i. split; auto. lia.
Qed.

Lemma ng_unfold n vs ts : (n < 2 ^ 32)%N -> N.of_nat (length vs) = (12 * n)%N ->
  read_neuroglancer f4 (uint_bytes false 4 n ++ vs ++ ts) =
  if negb (Nat.eqb (length ts mod 12) 0) then Err ReadError else
  let tri := chunks 3 (map (fun w => Z.of_N (uint_value false w)) (chunks 4 ts)) in
  if existsb (existsb (fun i => Z.of_N n <? i)%Z) tri then Err ReadError else
  Ok (chunks 3 (map (dec f4) (chunks 4 vs)), [Block "triangle" tri]).
Proof.
  intros Hn Hv. change (2 ^ 32)%N with (capacity 4) in Hn. unfold read_neuroglancer. cbv zeta.
  rewrite app_length, uint_bytes_length. cbn [Nat.add Nat.ltb Nat.leb].
  rewrite (firstn_exact (uint_bytes false 4 n)), (skipn_exact (uint_bytes false 4 n)) by now rewrite uint_bytes_length.
  rewrite uint_value_bytes by auto. rewrite app_length. destruct (N.ltb_spec (N.of_nat (length vs + length ts)) (12 * n)); [lia|].
  rewrite (skipn_exact vs), (firstn_exact vs) by lia. reflexivity.
Qed.
Lemma ng_truncated n vs : (n < 2 ^ 32)%N -> (N.of_nat (length vs) < 12 * n)%N ->
  read_neuroglancer f4 (uint_bytes false 4 n ++ vs) = Err ReadError.
Proof.
  intros Hn Hv. change (2 ^ 32)%N with (capacity 4) in Hn. unfold read_neuroglancer. cbv zeta.
  rewrite app_length, uint_bytes_length. cbn [Nat.add Nat.ltb Nat.leb].
  rewrite (firstn_exact (uint_bytes false 4 n)), (skipn_exact (uint_bytes false 4 n)) by now rewrite uint_bytes_length.
  rewrite uint_value_bytes by auto. destruct (N.ltb_spec (N.of_nat (length vs)) (12 * n)); [reflexivity|lia].
Qed.
Lemma existsb_rows (n : N) (l : list Z) : existsb (existsb (fun i => Z.of_N n <? i)%Z) (chunks 3 l) = existsb (fun i => Z.of_N n <? i)%Z l.
Proof.
  assert (G : forall rows, existsb (existsb (fun i => Z.of_N n <? i)%Z) rows = existsb (fun i => Z.of_N n <? i)%Z (concat rows)).
  { induction rows as [|r rows IH]; [reflexivity|]. cbn. now rewrite existsb_app, IH. }
  rewrite G, chunks_back by lia. reflexivity.
Qed.
Lemma ng_outcome n vs ts : (n < 2 ^ 32)%N -> N.of_nat (length vs) = (12 * n)%N ->
  (exists r, read_neuroglancer f4 (uint_bytes false 4 n ++ vs ++ ts) = Ok r) <->
  length ts mod 12 = 0 /\ Forall (fun w => (uint_value false w <= n)%N) (chunks 4 ts).
Proof.
  intros Hn Hv. rewrite ng_unfold by auto. cbv zeta. rewrite existsb_rows.
  destruct (Nat.eqb_spec (length ts mod 12) 0) as [E|E]; cbn [negb].
  - destruct (existsb _ _) eqn:Ee; split.
    + intros [r H]. discriminate.
    + intros [_ H]. exfalso. apply existsb_exists in Ee. destruct Ee as (i & Hi & Ee). apply in_map_iff in Hi.
      destruct Hi as (w & <- & Hw). rewrite Forall_forall in H. specialize (H w Hw). lia.
    + intros _. split; auto. apply Forall_forall. intros w Hw. destruct (N.leb_spec (uint_value false w) n); auto. exfalso.
      apply not_true_iff_false in Ee. apply Ee. apply existsb_exists. exists (Z.of_N (uint_value false w)).
      split; [apply in_map_iff; eauto|lia].
    + eauto.
  - split; [intros [r H]; discriminate|tauto].
Qed.
Lemma ng_refused n vs ts : (n < 2 ^ 32)%N -> N.of_nat (length vs) = (12 * n)%N ->
  length ts mod 12 <> 0 \/ Exists (fun w => (n < uint_value false w)%N) (chunks 4 ts) ->
  read_neuroglancer f4 (uint_bytes false 4 n ++ vs ++ ts) = Err ReadError.
Proof.
  intros Hn Hv H. rewrite ng_unfold by auto. cbv zeta. rewrite existsb_rows.
  destruct (Nat.eqb_spec (length ts mod 12) 0) as [E|E]; cbn [negb]; [|reflexivity].
  destruct H as [H|H]; [congruence|]. apply Exists_exists in H. destruct H as (w & Hw & H).
  replace (existsb _ _) with true; [reflexivity|]. symmetry. apply existsb_exists. exists (Z.of_N (uint_value false w)).
  split; [apply in_map_iff; eauto|lia].
Qed.
End NG.
