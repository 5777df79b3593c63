(** Proofs about VTU data arrays (C19, C20). *)
From Verif.Lib Require Import Base Facts Facts2 Bytes BytesFacts.
From Verif.Model Require Import Core Vtu.
From Coq Require Import NArith ZifyBool ZifyN ZifyNat.
Ltac Zify.zify_post_hook ::= Z.div_mod_to_equations.

Lemma num_base64_chars_nat n : Z.to_nat (num_base64_chars (Z.of_nat n)) = 4 * ((n + 2) / 3).
Proof. unfold num_base64_chars. lia. Qed.

Lemma num_base64_chars_ok l : num_base64_chars (Z.of_nat (length l)) = Z.of_nat (length (b64encode l)).
Proof. rewrite b64encode_length. unfold num_base64_chars. lia. Qed.

Lemma first_item_ok big w n : 0 < w -> (n < capacity w)%N -> first_item big w (uint_bytes big w n) = Ok n.
Proof.
  intros Hw Hn. unfold first_item.
  rewrite <- (app_nil_r (uint_bytes big w n)). change (uint_bytes big w n ++ []) with (concat [uint_bytes big w n]).
  rewrite frombuffer_concat; auto.
  - cbn [bind]. now rewrite uint_value_bytes.
  - constructor; [apply uint_bytes_length|constructor].
Qed.

Lemma Forall_concat {A} (P : A -> Prop) ls : Forall (Forall P) ls -> Forall P (concat ls).
Proof. induction 1; cbn; [constructor|]. apply Forall_app; auto. Qed.

Lemma firstn_exact {A} (l r : list A) n : n = length l -> firstn n (l ++ r) = l.
Proof. intros ->. rewrite firstn_app, firstn_all, Nat.sub_diag. cbn. apply app_nil_r. Qed.
Lemma skipn_exact {A} (l r : list A) n : n = length l -> skipn n (l ++ r) = r.
Proof. intros ->. rewrite skipn_app, skipn_all, Nat.sub_diag. reflexivity. Qed.

Lemma uncompressed_ok big w k items tail r : 0 < w -> 0 < k ->
  Forall (fun x => length x = k) items -> Forall (Forall is_byte) items ->
  (N.of_nat (length (concat items)) < capacity w)%N ->
  b64decode tail = Ok r ->
  exists text, write_uncompressed big w (concat items) = Ok text /\
    read_uncompressed big w k (text ++ tail) = Ok items.
Proof.
  intros Hw Hk Hi Hb Hc Ht. set (data := concat items) in *.
  unfold write_uncompressed, header_item. destruct (N.ltb_spec (N.of_nat (length data)) (capacity w)); [|lia].
  cbn [bind]. set (h := uint_bytes big w (N.of_nat (length data))). eexists. split; [reflexivity|].
  assert (Hh : length h = w) by apply uint_bytes_length.
  assert (Hby : Forall is_byte (h ++ data)).
  { apply Forall_app. split; [apply uint_bytes_ok|]. now apply Forall_concat. }
  unfold read_uncompressed. rewrite b64_roundtrip by auto. rewrite Ht. cbn [bind].
  destruct (Nat.eqb (length (h ++ data) mod 3) 0) eqn:E3; cbn [bind].
  - rewrite <- app_assoc, (firstn_exact h) by auto. unfold h at 1. rewrite first_item_ok by auto. cbn [bind].
    destruct (Nat.eqb_spec (length (h ++ data ++ r)) w) as [El|El].
    + rewrite !app_length in El. assert (data = []) by (destruct data; [auto|cbn in El; lia]).
      assert (r = []) by (destruct r; [auto|cbn in El; lia]). rewrite H0, H1, !app_nil_r.
      rewrite (skipn_exact (b64encode h)) by auto. rewrite Ht. cbn [bind length N.of_nat N.to_nat firstn].
      rewrite <- (frombuffer_concat k items) by auto. fold data. now rewrite H0.
    + cbn [bind]. rewrite (skipn_exact h) by auto. rewrite Nat2N.id, (firstn_exact data) by auto.
      now apply frombuffer_concat.
  - rewrite (firstn_exact h) by auto. unfold h at 1. rewrite first_item_ok by auto. cbn [bind].
    destruct (Nat.eqb_spec (length (h ++ data)) w) as [El|El].
    + rewrite !app_length in El. assert (data = []) by (destruct data; [auto|cbn in El; lia]).
      rewrite H0, !app_nil_r.
      rewrite (skipn_exact (b64encode h)) by auto. rewrite Ht. cbn [bind length N.of_nat N.to_nat firstn].
      rewrite <- (frombuffer_concat k items) by auto. fold data. now rewrite H0.
    + cbn [bind]. rewrite (skipn_exact h) by auto. rewrite Nat2N.id, firstn_all.
      now apply frombuffer_concat.
Qed.

(** Files of other writers: header and payload encoded separately, header width not a
    multiple of 3. *)
Lemma uncompressed_separate big w k items tail r : 0 < w -> w mod 3 <> 0 -> 0 < k ->
  Forall (fun x => length x = k) items -> Forall (Forall is_byte) items ->
  (N.of_nat (length (concat items)) < capacity w)%N ->
  b64decode tail = Ok r ->
  read_uncompressed big w k
    (b64encode (uint_bytes big w (N.of_nat (length (concat items)))) ++ b64encode (concat items) ++ tail) = Ok items.
Proof.
  intros Hw Hw3 Hk Hi Hb Hc Ht. set (data := concat items) in *.
  set (h := uint_bytes big w (N.of_nat (length data))).
  assert (Hh : length h = w) by apply uint_bytes_length.
  unfold read_uncompressed. rewrite b64_roundtrip by apply uint_bytes_ok. rewrite Hh.
  destruct (Nat.eqb_spec (w mod 3) 0); [lia|]. cbn [bind].
  rewrite <- Hh at 2. rewrite firstn_all. unfold h at 1. rewrite first_item_ok by auto. cbn [bind].
  rewrite Hh, Nat.eqb_refl. rewrite (skipn_exact (b64encode h)) by auto.
  rewrite b64_roundtrip by (now apply Forall_concat). rewrite Ht.
  rewrite Nat2N.id. destruct (Nat.eqb (length data mod 3) 0); cbn [bind].
  - rewrite (firstn_exact data) by auto. now apply frombuffer_concat.
  - rewrite firstn_all. now apply frombuffer_concat.
Qed.

(** ** Compressed *)
Lemma header_items_ok big w l : Forall (fun n => (n < capacity w)%N) l ->
  mapM (header_item big w) l = Ok (map (uint_bytes big w) l).
Proof.
  intros H. apply mapM_Forall2. induction H as [|n l Hn H IH]; constructor; auto.
  unfold header_item. destruct (N.ltb_spec n (capacity w)); [reflexivity|lia].
Qed.

Lemma sum_le l x : In x l -> x <= sum_nat l.
Proof. induction l as [|y l IH]; cbn; [tauto|]. intros [->|H]; [lia|]. specialize (IH H). lia. Qed.

Lemma cumsum_mod_nth w acc l i :
  (acc + N.of_nat (sum_nat l) < capacity w)%N -> i <= length l ->
  nth_error (acc :: cumsum_mod w acc (map N.of_nat l)) i = Some (acc + N.of_nat (sum_nat (firstn i l)))%N.
Proof.
  revert acc i; induction l as [|x l IH]; intros acc i H Hi.
  - assert (i = 0) by (cbn in Hi; lia). subst. cbn. f_equal. lia.
  - destruct i as [|i]; [cbn; f_equal; lia|]. cbn [map cumsum_mod nth_error].
    cbn [sum_nat] in H. rewrite (N.mod_small (acc + N.of_nat x)) by lia. cbn zeta.
    cbn in Hi. rewrite IH by lia. cbn [firstn sum_nat]. f_equal. lia.
Qed.

Lemma slice_concat {A} (ls : list (list A)) r i x : nth_error ls i = Some x ->
  slice (sum_nat (map (@length A) (firstn i ls))) (sum_nat (map (@length A) (firstn (S i) ls))) (concat ls ++ r) = x.
Proof.
  revert i; induction ls as [|y ls IH]; intros [|i] H; try discriminate.
  - cbn in H. injection H as ->. cbn [firstn map sum_nat concat]. unfold slice. rewrite Nat.add_0_r, Nat.sub_0_r.
    cbn [skipn]. rewrite <- app_assoc. now apply firstn_exact.
  - cbn [nth_error] in H. specialize (IH i H).
    change (firstn (S (S i)) (y :: ls)) with (y :: firstn (S i) ls). change (firstn (S i) (y :: ls)) with (y :: firstn i ls).
    cbn [map sum_nat concat]. unfold slice in *.
    rewrite <- app_assoc. rewrite skipn_app. rewrite (skipn_all2 y) by lia. cbn [app].
    match goal with |- firstn ?a (skipn ?b _) = _ => replace b with (sum_nat (map (@length A) (firstn i ls))) by lia;
      replace a with (sum_nat (map (@length A) (firstn (S i) ls)) - sum_nat (map (@length A) (firstn i ls))) by lia end.
    exact IH.
Qed.

Lemma compressed_ok compress decompress big w k q items tail r :
  (forall b, Forall is_byte b -> decompress (compress b) = Ok b) ->
  (forall b, Forall is_byte b -> Forall is_byte (compress b)) ->
  0 < w -> 0 < k -> 0 < q -> items <> [] ->
  Forall (fun x => length x = k) items -> Forall (Forall is_byte) items ->
  (N.of_nat (k * q) < capacity w)%N ->
  (N.of_nat (length (chunk_it (k * q) (concat items))) < capacity w)%N ->
  (N.of_nat (length (concat (map compress (chunk_it (k * q) (concat items))))) < capacity w)%N ->
  b64decode tail = Ok r ->
  exists text, write_compressed compress big w (k * q) (concat items) = Ok text /\
    read_compressed decompress big w k (text ++ tail) = Ok items.
Proof.
  intros Hdc Hcb Hw Hk Hq Hne Hi Hb Hm Hn Hs Ht.
  set (data := concat items) in *. set (m := k * q) in *. assert (Hm0 : 0 < m) by (unfold m; nia).
  set (chunkl := chunk_it m data) in *. set (blocks := map compress chunkl) in *.
  assert (Hdata : Forall is_byte data) by (now apply Forall_concat).
  assert (Hchunks : Forall (Forall is_byte) chunkl) by (now apply chunks_fuel_Forall).
  assert (Hblocks : Forall (Forall is_byte) blocks).
  { unfold blocks. apply Forall_forall. intros x Hx. apply in_map_iff in Hx. destruct Hx as (c & <- & Hc).
    apply Hcb. rewrite Forall_forall in Hchunks. auto. }
  assert (Hnb : (- (- Z.of_nat (length data) / Z.of_nat m))%Z = Z.of_nat (length chunkl)).
  { unfold chunkl, chunk_it, chunks. rewrite chunks_fuel_length by lia.
    rewrite Nat2Z.inj_div, Nat2Z.inj_add, Nat2Z.inj_sub by lia.
    set (a := Z.of_nat (length data)). set (b := Z.of_nat m). assert (0 < b)%Z by lia.
    change (Z.of_nat 1) with 1%Z.
    assert (E : (- a / b = - ((a + (b - 1)) / b))%Z).
    { symmetry. apply Z.div_unique with (r := ((b - 1) - (a + (b - 1)) mod b)%Z).
      - left. pose proof (Z.mod_pos_bound (a + (b - 1)) b ltac:(lia)). lia.
      - pose proof (Z.div_mod (a + (b - 1)) b ltac:(lia)). lia. }
    rewrite E. lia. }
  unfold write_compressed. rewrite Hnb. fold chunkl blocks.
  set (last := Z.to_N (Z.of_nat (length data) - (Z.of_nat (length chunkl) - 1) * Z.of_nat m)).
  set (sizes := map (@length N) blocks).
  assert (Hsum : sum_nat sizes = length (concat blocks)) by (unfold sizes; now rewrite concat_length_sum).
  assert (Hlast : (last < capacity w)%N).
  { unfold last. assert (Hlen : (Z.of_nat (length data) <= Z.of_nat (length chunkl) * Z.of_nat m)%Z).
    { rewrite <- Hnb. pose proof (Z.div_mod (- Z.of_nat (length data)) (Z.of_nat m) ltac:(lia)).
      pose proof (Z.mod_pos_bound (- Z.of_nat (length data)) (Z.of_nat m) ltac:(lia)). nia. }
    lia. }
  set (nums := Z.to_N (Z.of_nat (length chunkl)) :: N.of_nat m :: last :: map (fun b : bytes => N.of_nat (length b)) blocks).
  assert (Hfit : Forall (fun n => (n < capacity w)%N) nums).
  { unfold nums. repeat constructor; try lia. apply Forall_forall. intros n Hin. apply in_map_iff in Hin.
    destruct Hin as (b & <- & Hin). assert (length b <= sum_nat sizes) by (apply sum_le; unfold sizes; now apply in_map). lia. }
  rewrite header_items_ok by exact Hfit. cbn [bind]. eexists. split; [reflexivity|].
  set (H := concat (map (uint_bytes big w) nums)).
  assert (HHb : Forall is_byte H).
  { apply Forall_concat. apply Forall_forall. intros x Hx. apply in_map_iff in Hx. destruct Hx as (n & <- & _).
    apply uint_bytes_ok. }
  assert (HHw : Forall (fun x => length x = w) (map (uint_bytes big w) nums)).
  { apply Forall_forall. intros x Hx. apply in_map_iff in Hx. destruct Hx as (n & <- & _). apply uint_bytes_length. }
  assert (HHl : length H = w * (3 + length chunkl)).
  { unfold H. rewrite concat_uniform_length with (k := w) by auto. rewrite map_length. unfold nums. cbn [length].
    rewrite map_length. unfold blocks. rewrite map_length. lia. }
  unfold read_compressed. rewrite num_base64_chars_nat.
  set (k0 := (w + 2) / 3). assert (Hk0 : 3 * k0 <= length H) by (rewrite HHl; unfold k0; nia).
  assert (Hk1 : w <= 3 * k0) by (unfold k0; lia).
  assert (Hk2 : 4 * k0 <= length (b64encode H)) by (rewrite b64encode_length; lia).
  rewrite <- app_assoc.
  assert (E0 : firstn (4 * k0) (b64encode H ++ b64encode (concat blocks) ++ tail) = b64encode (firstn (3 * k0) H)).
  { rewrite firstn_app. replace (4 * k0 - length (b64encode H)) with 0 by lia. cbn [firstn]. rewrite app_nil_r.
    now apply b64encode_firstn. }
  rewrite E0. rewrite b64_roundtrip_nil.
  2: { rewrite <- (firstn_skipn (3 * k0) H), Forall_app in HHb. tauto. }
  cbn [bind]. rewrite firstn_firstn, Nat.min_l by lia.
  assert (E1 : firstn w H = uint_bytes big w (Z.to_N (Z.of_nat (length chunkl)))).
  { unfold H, nums. cbn [map concat]. apply firstn_exact. now rewrite uint_bytes_length. }
  rewrite E1, first_item_ok by (auto; lia). cbn [bind].
  assert (Ecnt : N.to_nat (Z.to_N (Z.of_nat (length chunkl))) = length chunkl) by lia. rewrite Ecnt.
  rewrite num_base64_chars_nat, <- HHl, <- b64encode_length.
  rewrite (firstn_exact (b64encode H)) by auto. rewrite b64_roundtrip_nil by auto. cbn [bind].
  unfold H at 1. rewrite frombuffer_concat by auto. cbn [bind].
  rewrite (skipn_exact (b64encode H)) by auto.
  assert (Hval : map (uint_value big) (map (uint_bytes big w) nums) = nums).
  { rewrite map_map. rewrite <- (map_id nums) at 2. apply map_ext_in. intros n Hin. apply uint_value_bytes.
    rewrite Forall_forall in Hfit. auto. }
  rewrite Hval. unfold nums. cbn [skipn].
  assert (Hsz : map (fun b : bytes => N.of_nat (length b)) blocks = map N.of_nat sizes)
    by (unfold sizes; now rewrite map_map).
  rewrite Hsz. rewrite b64_roundtrip by (now apply Forall_concat). rewrite Ht.
  assert (Hdec : exists rr, (if Nat.eqb (length (concat blocks) mod 3) 0
           then do r0 <- Ok r; Ok (concat blocks ++ r0) else Ok (concat blocks)) = Ok (concat blocks ++ rr)).
  { destruct (Nat.eqb _ _); [exists r; reflexivity|exists []; now rewrite app_nil_r]. }
  destruct Hdec as [rr Hdec]. rewrite Hdec. cbn [bind].
  assert (Hitems : chunkl = map (@concat N) (chunks_fuel (length data) q items)).
  { unfold chunkl, chunk_it, chunks, data, m. apply chunks_fuel_items; auto. }
  set (groups := chunks_fuel (length data) q items) in *.
  assert (Hgroups : concat groups = items).
  { unfold groups. apply chunks_fuel_back; auto. unfold data. rewrite concat_uniform_length with (k := k) by auto. nia. }
  assert (Hgk : Forall (Forall (fun x => length x = k)) groups) by (now apply chunks_fuel_Forall).
  assert (Hgl : length groups = length chunkl) by (rewrite Hitems; now rewrite map_length).
  assert (Hmap : mapM (fun i => do a <- of_option IndexError (nth_error (0%N :: cumsum_mod w 0 (map N.of_nat sizes)) i);
        do b <- of_option IndexError (nth_error (0%N :: cumsum_mod w 0 (map N.of_nat sizes)) (S i));
        do d <- decompress (slice (N.to_nat a) (N.to_nat b) (concat blocks ++ rr)); frombuffer k d)
        (seq 0 (length chunkl)) = Ok groups).
  { apply mapM_nth; [rewrite seq_length; lia|]. intros i x g Hx Hg.
    assert (Hlt := nth_error_lt _ _ _ Hg).
    rewrite (nth_error_nth' _ 0) in Hx by (rewrite seq_length; lia). rewrite seq_nth in Hx by lia.
    injection Hx as <-. cbn [Nat.add].
    assert (Hls : length sizes = length chunkl) by (unfold sizes, blocks; now rewrite !map_length).
    rewrite !cumsum_mod_nth by (try rewrite Hls; try lia; rewrite Hsum; lia). cbn [of_option bind].
    assert (Hblk : nth_error blocks i = Some (compress (concat g))).
    { unfold blocks. rewrite Hitems, !nth_error_map, Hg. reflexivity. }
    unfold sizes. rewrite !firstn_map, !N.add_0_l, !Nat2N.id.
    rewrite (slice_concat blocks rr i _ Hblk). rewrite Hdc.
    - cbn [bind]. apply frombuffer_concat; auto. rewrite Forall_forall in Hgk. apply Hgk. eapply nth_error_In; eauto.
    - apply Forall_concat. assert (Hgb : Forall (Forall (Forall is_byte)) groups) by (now apply chunks_fuel_Forall).
      rewrite Forall_forall in Hgb. apply Hgb. eapply nth_error_In; eauto. }
  rewrite Hmap. cbn [bind]. destruct groups as [|g gs] eqn:Eg.
  - cbn in Hgroups. congruence.
  - now rewrite Hgroups.
Qed.

(** An empty array is written but cannot be read back. *)
Lemma compressed_empty compress decompress big w k m tail r : 0 < w -> 0 < m ->
  (N.of_nat m < capacity w)%N -> b64decode tail = Ok r ->
  exists text, write_compressed compress big w m [] = Ok text /\
    read_compressed decompress big w k (text ++ tail) = Err ValueError.
Proof.
  intros Hw Hm Hc Ht. unfold write_compressed. cbn [length Z.of_nat Z.opp chunk_it chunks chunks_fuel map concat b64encode].
  rewrite Z.div_0_l by lia.
  set (nums := [0%N; N.of_nat m; N.of_nat m]).
  replace (Z.to_N (-0) :: _) with nums.
  2: { unfold nums. cbn [Z.opp Z.to_N]. apply f_equal2; [reflexivity|]. apply f_equal. apply f_equal2; [lia|reflexivity]. }
  assert (Hfit : Forall (fun n => (n < capacity w)%N) nums).
  { pose proof (capacity_pos w). unfold nums. repeat constructor; lia. }
  rewrite header_items_ok by exact Hfit. cbn [bind]. eexists. split; [reflexivity|].
  rewrite app_nil_r. set (H := concat (map (uint_bytes big w) nums)).
  assert (HHb : Forall is_byte H).
  { apply Forall_concat. apply Forall_forall. intros x Hx. apply in_map_iff in Hx. destruct Hx as (n & <- & _).
    apply uint_bytes_ok. }
  assert (HHw : Forall (fun x => length x = w) (map (uint_bytes big w) nums)).
  { apply Forall_forall. intros x Hx. apply in_map_iff in Hx. destruct Hx as (n & <- & _). apply uint_bytes_length. }
  assert (HHl : length H = w * 3).
  { unfold H. rewrite concat_uniform_length with (k := w) by auto. reflexivity. }
  unfold read_compressed. rewrite num_base64_chars_nat.
  set (k0 := (w + 2) / 3). assert (Hk0 : 3 * k0 <= length H) by (rewrite HHl; unfold k0; lia).
  assert (Hk1 : w <= 3 * k0) by (unfold k0; lia).
  assert (Hk2 : 4 * k0 <= length (b64encode H)) by (rewrite b64encode_length; lia).
  assert (E0 : firstn (4 * k0) (b64encode H ++ tail) = b64encode (firstn (3 * k0) H)).
  { rewrite firstn_app. replace (4 * k0 - length (b64encode H)) with 0 by lia. cbn [firstn]. rewrite app_nil_r.
    now apply b64encode_firstn. }
  rewrite E0. rewrite b64_roundtrip_nil.
  2: { rewrite <- (firstn_skipn (3 * k0) H), Forall_app in HHb. tauto. }
  cbn [bind]. rewrite firstn_firstn, Nat.min_l by lia.
  assert (E1 : firstn w H = uint_bytes big w 0).
  { unfold H, nums. cbn [map concat]. apply firstn_exact. now rewrite uint_bytes_length. }
  rewrite E1, first_item_ok by (auto; apply capacity_pos). cbn [bind N.to_nat].
  rewrite num_base64_chars_nat, Nat.add_0_r, <- HHl, <- b64encode_length.
  rewrite (firstn_exact (b64encode H)) by auto. rewrite b64_roundtrip_nil by auto. cbn [bind].
  unfold H at 1. rewrite frombuffer_concat by auto. cbn [bind].
  rewrite (skipn_exact (b64encode H)) by auto. rewrite Ht. reflexivity.
Qed.
