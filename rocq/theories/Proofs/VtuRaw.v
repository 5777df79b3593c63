(** Appended raw data of VTU files (C73). *)
From Coq Require Import ZArith NArith List String Ascii Bool Lia Permutation.
From Verif.Lib Require Import Base Text Facts Facts2 TextFacts Lines LinesFacts Bytes BytesFacts File.
From Verif.Model Require Import Core Vtu VtkFile Cxml VtuFile.
From Verif.Spec Require Import Cxml VtuRaw.
From Verif.Proofs Require Import CoreMisc Vtu Cxml VtuFile.
Import ListNotations.

Fixpoint xnode_rect' (P : xnode -> Prop) (H : forall t a x cs, Forall P cs -> P (XNode t a x cs)) (n : xnode) : P n :=
  match n with
  | XNode t a x cs => H t a x cs ((fix go l : Forall P l := match l with [] => Forall_nil _ | c :: l' => Forall_cons _ (xnode_rect' P H c) (go l') end) cs)
  end.

Lemma NoDup_app_remove_l {A} (l l' : list A) : NoDup (l ++ l') -> NoDup l'.
Proof. induction l as [|x l IH]; [auto|]. cbn. intros H. inversion H; subst. auto. Qed.
Lemma NoDup_app_remove_r {A} (l l' : list A) : NoDup (l ++ l') -> NoDup l.
Proof.
  induction l as [|x l IH]; [constructor|]. cbn. intros H. inversion H as [|? ? Hn Hd]; subst. constructor; [|auto].
  intros Hx. apply Hn, in_app_iff. now left.
Qed.

(** ** Renaming offsets *)
Definition reoffset_one (f : string -> string) (n : xnode) : xnode :=
  let 'XNode t a x cs := n in
  match dget "offset" a with
  | Some o => if String.eqb t "DataArray" then XNode t (dset "offset" (f o) a) x cs else n
  | None => n
  end.
Fixpoint reoffset (f : string -> string) (n : xnode) : xnode :=
  match n with XNode t a x cs => XNode t a x (map (fun c => reoffset_one f (reoffset f c)) cs) end.

Lemma reoffset_shape f n : xtag (reoffset f n) = xtag n /\ xattrs (reoffset f n) = xattrs n /\ xtext (reoffset f n) = xtext n.
Proof. now destruct n. Qed.
Lemma own_reoffset f n : own_offset (reoffset_one f n) = map f (own_offset n).
Proof.
  destruct n as [t a x cs]. unfold own_offset, reoffset_one. destruct (dget "offset" a) as [o|] eqn:E.
  - destruct (String.eqb t "DataArray") eqn:Et; cbn [xtag xattrs]; rewrite Et, ?dget_dset, ?E; reflexivity.
  - cbn [xtag xattrs]. rewrite E. now destruct (String.eqb t "DataArray").
Qed.
Lemma own_reoffset_deep f n : own_offset (reoffset f n) = own_offset n.
Proof. now destruct n. Qed.
Lemma offsets_one f n : offsets (reoffset_one f n) = offsets n.
Proof. destruct n as [t a x cs]. unfold reoffset_one. destruct (dget "offset" a); [destruct (String.eqb t "DataArray")|]; reflexivity. Qed.
Lemma offsets_reoffset f n : offsets (reoffset f n) = map f (offsets n).
Proof.
  induction n as [t a x cs IH] using xnode_rect'. cbn [reoffset offsets].
  induction IH as [|c cs Hc H IH]; [reflexivity|]. cbn [map flat_map]. rewrite !map_app, IH, own_reoffset, own_reoffset_deep, offsets_one, Hc. reflexivity.
Qed.
Lemma reoffset_one_ext f g n : (forall o, In o (own_offset n) -> f o = g o) -> reoffset_one f n = reoffset_one g n.
Proof.
  destruct n as [t a x cs]. unfold own_offset, reoffset_one. cbn [xtag xattrs]. intros H. destruct (dget "offset" a) as [o|]; [|reflexivity].
  destruct (String.eqb t "DataArray"); [|reflexivity]. rewrite H by now left. reflexivity.
Qed.
Lemma reoffset_ext f g n : (forall o, In o (offsets n) -> f o = g o) -> reoffset f n = reoffset g n.
Proof.
  induction n as [t a x cs IH] using xnode_rect'. cbn [reoffset offsets]. intros H. f_equal. apply map_ext_in. intros c Hc.
  rewrite Forall_forall in IH. rewrite (IH c Hc).
  - apply reoffset_one_ext. intros o Ho. apply H. rewrite own_reoffset_deep in Ho. apply in_flat_map. exists c. split; [exact Hc|]. apply in_app_iff. now left.
  - intros o Ho. apply H. apply in_flat_map. exists c. split; [exact Hc|]. apply in_app_iff. now right.
Qed.
Lemma dset_same {V} k (v : V) d : dget k d = Some v -> dset k v d = d.
Proof.
  induction d as [|[k' v'] d IH]; [discriminate|]. cbn [dget dset]. destruct (String.eqb k k') eqn:E; [|intros H; now rewrite IH].
  intros H. injection H as ->. apply String.eqb_eq in E. now subst.
Qed.
Lemma reoffset_id f n : (forall o, In o (offsets n) -> f o = o) -> reoffset f n = n.
Proof.
  induction n as [t a x cs IH] using xnode_rect'. cbn [reoffset offsets]. intros H. f_equal. rewrite <- (map_id cs) at 2. apply map_ext_in. intros c Hc.
  rewrite Forall_forall in IH. rewrite (IH c Hc).
  - assert (Ho : forall o, In o (own_offset c) -> f o = o).
    { intros o Ho. apply H. apply in_flat_map. exists c. split; [exact Hc|]. apply in_app_iff. now left. }
    destruct c as [t' a' x' cs']. unfold own_offset in Ho. cbn [xtag xattrs] in Ho. unfold reoffset_one.
    destruct (dget "offset" a') as [o|] eqn:E; [|reflexivity]. destruct (String.eqb t' "DataArray"); [|reflexivity].
    rewrite Ho by now left. now rewrite dset_same.
  - intros o Ho. apply H. apply in_flat_map. exists c. split; [exact Hc|]. apply in_app_iff. now right.
Qed.
Lemma dset_dset {V} k (v w : V) d : dset k v (dset k w d) = dset k v d.
Proof.
  induction d as [|[k' v'] d IH]; cbn [dset]; [now rewrite String.eqb_refl|]. destruct (String.eqb k k') eqn:E; cbn [dset]; rewrite ?E, ?String.eqb_refl; [reflexivity|].
  now rewrite IH.
Qed.
Lemma reoffset_one_twice f g n : reoffset_one g (reoffset_one f n) = reoffset_one (fun o => g (f o)) n.
Proof.
  destruct n as [t a x cs]. unfold reoffset_one. destruct (dget "offset" a) as [o|] eqn:E; [|now rewrite E].
  destruct (String.eqb t "DataArray") eqn:Et; rewrite ?dget_dset, ?E, ?Et; [|reflexivity]. cbn [String.eqb Ascii.eqb Bool.eqb]. now rewrite dset_dset.
Qed.
Lemma reoffset_swap f g n : reoffset g (reoffset_one f n) = reoffset_one f (reoffset g n).
Proof. destruct n as [t a x cs]. unfold reoffset_one. cbn [reoffset]. destruct (dget "offset" a); [destruct (String.eqb t "DataArray")|]; reflexivity. Qed.
Lemma reoffset_twice f g n : reoffset g (reoffset f n) = reoffset (fun o => g (f o)) n.
Proof.
  induction n as [t a x cs IH] using xnode_rect'. cbn [reoffset]. f_equal. rewrite map_map. apply map_ext_in. intros c Hc.
  rewrite Forall_forall in IH. rewrite reoffset_swap, reoffset_one_twice. now rewrite (IH c Hc).
Qed.

Definition put (old new : string) (o : string) : string := if String.eqb o old then new else o.
Lemma put_other old new o : o <> old -> put old new o = o.
Proof. unfold put. intros H. destruct (String.eqb_spec o old); congruence. Qed.
Lemma has_offset_own old n : has_offset old n = true <-> own_offset n = [old].
Proof.
  destruct n as [t a x cs]. unfold has_offset, own_offset. cbn [xtag xattrs]. destruct (String.eqb t "DataArray"); cbn [andb]; [|split; discriminate].
  destruct (dget "offset" a) as [o|]; [|split; discriminate]. rewrite String.eqb_eq. split; congruence.
Qed.
Lemma own_not old n : has_offset old n = false -> ~ In old (own_offset n).
Proof.
  destruct n as [t a x cs]. unfold has_offset, own_offset. cbn [xtag xattrs]. destruct (String.eqb t "DataArray"); cbn [andb]; [|auto].
  destruct (dget "offset" a) as [o|]; [|auto]. intros H [->|[]]. now rewrite String.eqb_refl in H.
Qed.
Lemma put_one_id old new n : ~ In old (own_offset n) -> reoffset_one (put old new) n = n.
Proof.
  destruct n as [t a x cs]. unfold own_offset, reoffset_one. cbn [xtag xattrs]. intros H. destruct (dget "offset" a) as [o|] eqn:E; [|reflexivity].
  destruct (String.eqb t "DataArray"); [|reflexivity]. rewrite put_other by (intros ->; apply H; now left). now rewrite dset_same.
Qed.

(** [relabel] changes the one element that has the offset *)
Lemma relabel_none old new n : ~ In old (offsets n) -> relabel old new n = None.
Proof.
  induction n as [t a x cs IH] using xnode_rect'. cbn [offsets relabel]. intros H.
  match goal with |- option_map _ (?G cs) = _ => set (go := G) end.
  assert (E : go cs = None); [|now rewrite E].
  induction IH as [|c cs Hc IHc IH]; [reflexivity|]. cbn [flat_map] in H. rewrite !in_app_iff in H. cbn.
  destruct (has_offset old c) eqn:Eo; [apply has_offset_own in Eo; exfalso; apply H; left; left; rewrite Eo; now left|].
  fold go. rewrite Hc by tauto. rewrite IH by tauto. reflexivity.
Qed.
Lemma relabel_some old new n : NoDup (offsets n) -> In old (offsets n) -> relabel old new n = Some (reoffset (put old new) n).
Proof.
  induction n as [t a x cs IH] using xnode_rect'. cbn [offsets relabel reoffset]. intros Hd Hi.
  match goal with |- option_map _ (?G cs) = _ => set (go := G) end.
  assert (E : go cs = Some (map (fun c => reoffset_one (put old new) (reoffset (put old new) c)) cs)); [|now rewrite E].
  induction IH as [|c cs Hc IHc IH]; [destruct Hi|]. cbn [flat_map] in Hd, Hi. rewrite <- app_assoc in Hd, Hi.
  assert (Hrest : ~ In old (flat_map (fun c => own_offset c ++ offsets c) cs) -> map (fun c => reoffset_one (put old new) (reoffset (put old new) c)) cs = cs).
  { intros Hn. rewrite <- (map_id cs) at 2. apply map_ext_in. intros d Hdd. rewrite reoffset_id.
    - apply put_one_id. intros Hx. apply Hn. apply in_flat_map. exists d. split; [exact Hdd|]. apply in_app_iff. now left.
    - intros o Ho. apply put_other. intros ->. apply Hn. apply in_flat_map. exists d. split; [exact Hdd|]. apply in_app_iff. now right. }
  cbn. destruct (has_offset old c) eqn:Eo.
  - assert (Ew := Eo). apply has_offset_own in Eo. rewrite Eo in Hd. cbn [app] in Hd. inversion Hd as [|? ? Hn _]; subst. rewrite in_app_iff in Hn.
    do 2 f_equal; [|symmetry; apply Hrest; tauto]. rewrite reoffset_id by (intros o Ho; apply put_other; intros ->; tauto).
    destruct c as [t' a' x' cs']. unfold has_offset in Ew. cbn [xtag xattrs] in Ew. unfold reoffset_one, set_attr.
    destruct (String.eqb t' "DataArray"); [|discriminate]. cbn [andb] in Ew. destruct (dget "offset" a') as [o|]; [|discriminate].
    unfold put. now rewrite Ew.
  - fold go. assert (Ho := own_not _ _ Eo). apply NoDup_app_remove_l in Hd. destruct (in_dec string_dec old (offsets c)) as [Hin|Hin].
    + rewrite Hc by (auto; now apply NoDup_app_remove_r in Hd). do 2 f_equal.
      * symmetry. apply put_one_id. now rewrite own_reoffset_deep.
      * symmetry. apply Hrest. intros Hx. revert Hd Hin Hx. clear. generalize (flat_map (fun c => own_offset c ++ offsets c) cs). intros l. induction (offsets c) as [|y l' IH]; [intros _ []|].
        cbn [app]. intros Hd. inversion Hd as [|? ? Hn Hd']; subst. intros [->|Hi] Hx; [apply Hn, in_app_iff; now right|]. now apply IH.
    + rewrite relabel_none by exact Hin. rewrite IH; [|now apply NoDup_app_remove_l in Hd|rewrite !in_app_iff in Hi; tauto].
      cbn [option_map map]. do 2 f_equal. rewrite reoffset_id by (intros o Hx; apply put_other; intros ->; tauto). now rewrite put_one_id.
Qed.

(** ** The loop over the data *)
Section Loop.
Variables (big : bool) (w : nat).
Hypothesis Hw : 0 < w.

Definition enc_len (d : bytes) : nat := 4 * ((w + length d + 2) / 3).
Definition news (from : nat) (ps : list stored) : list string := map str_of_nat (starts from (map (fun p => enc_len (content p)) ps)).
Definition olds (from : nat) (ps : list stored) : list string := map str_of_nat (starts from (map (fun p => length (in_file p)) ps)).
Definition ren (pairs : dict string) (o : string) : string := match dget o pairs with Some n => n | None => o end.
Definition arr_ok (d : bytes) : Prop := Forall is_byte d /\ (N.of_nat (length d) < capacity w)%N.
Definition text_of (ds : list bytes) : chars := concat (map (fun d => b64encode (sized big w d)) ds).

Lemma sized_length d : length (sized big w d) = w + length d.
Proof. unfold sized. now rewrite app_length, uint_bytes_length. Qed.
Lemma sized_text_length d : length (b64encode (sized big w d)) = enc_len d.
Proof. now rewrite b64encode_length, sized_length. Qed.
Lemma sized_ok d : arr_ok d -> Forall is_byte (sized big w d).
Proof. intros [H _]. apply Forall_app. split; [apply uint_bytes_ok|exact H]. Qed.

Definition piece_ok (p : stored) : Prop := Forall is_byte (in_file p) /\ arr_ok (content p).
Definition texts (ps : list stored) : chars := text_of (map content ps).

(** What both loops do with the first array *)
Definition steps (loop : nat -> nat -> bytes -> chars -> xnode -> result (xnode * chars)) (good : stored -> Prop) : Prop :=
  (forall fuel i acc root, loop fuel i [] acc root = Ok (root, acc)) /\
  (forall fuel i p rest acc root root', good p -> arr_ok (content p) -> relabel (str_of_nat i) (str_of_nat (length acc)) root = Some root' ->
     loop (S fuel) i (in_file p ++ rest) acc root = loop fuel (i + length (in_file p)) rest (acc ++ b64encode (sized big w (content p))) root').

Lemma loop_ok loop good : steps loop good -> forall ds fuel i acc root P, Forall good ds -> Forall piece_ok ds -> length ds < fuel ->
  Permutation (offsets root) (P ++ olds i ds) ->
  (forall k, NoDup (P ++ firstn k (news (length acc) ds) ++ skipn k (olds i ds))) ->
  loop fuel i (appended ds) acc root =
  Ok (reoffset (ren (combine (olds i ds) (news (length acc) ds))) root, acc ++ texts ds).
Proof.
  intros [L0 L1]. induction ds as [|d ds IH]; intros fuel i acc root P Hg Hd Hf Hp Hn.
  - cbn [appended map concat]. rewrite L0. cbn. rewrite reoffset_id, app_nil_r by reflexivity. reflexivity.
  - inversion Hd as [|? ? Hd1 Hds]; subst. inversion Hg as [|? ? Hg1 Hgs]; subst. destruct fuel as [|fuel]; [cbn in Hf; lia|].
    assert (Ed : appended (d :: ds) = in_file d ++ appended ds) by reflexivity.
    set (o := str_of_nat i). set (n := str_of_nat (length acc)).
    assert (Eo : olds i (d :: ds) = o :: olds (i + length (in_file d)) ds) by reflexivity.
    assert (En : news (length acc) (d :: ds) = n :: news (length acc + enc_len (content d)) ds) by reflexivity.
    rewrite Eo, En in *. set (O' := olds (i + length (in_file d)) ds) in *. set (N' := news (length acc + enc_len (content d)) ds) in *.
    assert (N0 : NoDup (P ++ o :: O')) by exact (Hn 0).
    assert (N1 : NoDup (P ++ n :: O')) by exact (Hn 1).
    assert (Nr : NoDup (offsets root)) by (eapply Permutation_NoDup; [apply Permutation_sym; exact Hp|exact N0]).
    assert (Ir : In o (offsets root)) by (eapply Permutation_in; [apply Permutation_sym; exact Hp|apply in_app_iff; right; now left]).
    rewrite Ed. rewrite (L1 fuel i d (appended ds) acc root (reoffset (put o n) root)); [|exact Hg1|apply Hd1|now apply relabel_some].
    apply NoDup_remove in N0. destruct N0 as [N0 No]. rewrite in_app_iff in No.
    assert (Hmap : map (put o n) (P ++ o :: O') = P ++ n :: O').
    { rewrite map_app. cbn [map]. f_equal; [|f_equal].
      - rewrite <- (map_id P) at 2. apply map_ext_in. intros x Hx. apply put_other. intros ->. tauto.
      - unfold put. now rewrite String.eqb_refl.
      - rewrite <- (map_id O') at 2. apply map_ext_in. intros x Hx. apply put_other. intros ->. tauto. }
    rewrite (IH fuel (i + length (in_file d)) (acc ++ b64encode (sized big w (content d))) (reoffset (put o n) root) (P ++ [n])); auto.
    + rewrite app_length, sized_text_length. fold O' N'. rewrite reoffset_twice. f_equal. f_equal.
      * apply reoffset_ext. intros x Hx. unfold ren at 2. cbn [combine dget]. unfold put. rewrite (String.eqb_sym x o). destruct (String.eqb_spec o x) as [->|Hxo]; [|reflexivity].
        unfold ren. assert (Nn : ~ In n O'). { apply NoDup_remove in N1. destruct N1 as [_ N1]. rewrite in_app_iff in N1. tauto. }
        destruct (dget n (combine O' N')) as [z|] eqn:Ez; [|reflexivity]. exfalso. apply Nn. apply dget_In in Ez. eapply in_combine_l; exact Ez.
      * unfold texts, text_of. cbn [map concat]. now rewrite <- app_assoc.
    + cbn in Hf. lia.
    + rewrite offsets_reoffset, <- app_assoc. cbn [app]. fold O'. rewrite <- Hmap. now apply Permutation_map.
    + intros k. rewrite app_length, sized_text_length. fold O' N'. specialize (Hn (S k)). cbn [firstn skipn app] in Hn. rewrite <- app_assoc. exact Hn.
Qed.

Lemma plain_pos p : plain big w p -> 0 < length (in_file p).
Proof. intros ->. rewrite sized_length. lia. Qed.
Lemma plain_steps : steps (fun fuel i data acc root => raw_loop fuel big w i data acc root) (plain big w).
Proof.
  split; [now intros []|]. intros fuel i p rest acc root root' Hp [Hb Hc] Hr. pose proof (plain_pos p Hp) as Hl.
  assert (Hne : exists b bs, in_file p ++ rest = b :: bs) by (destruct (in_file p); [cbn in Hl; lia|cbn; eauto]).
  destruct Hne as (b & bs & Eb). cbn [raw_loop]. rewrite Eb at 1. rewrite Hr. cbn [of_option bind].
  assert (Ef : first_item big w (firstn w (in_file p ++ rest)) = Ok (N.of_nat (length (content p)))).
  { rewrite Hp. unfold sized. rewrite <- app_assoc, firstn_exact by (symmetry; apply uint_bytes_length). now apply first_item_ok. }
  rewrite Ef. cbn [bind]. rewrite Nat2N.id.
  rewrite <- (sized_length (content p)), <- Hp.
  rewrite (skipn_exact (in_file p)), (firstn_exact (in_file p)) by reflexivity. reflexivity.
Qed.

Lemma numbers_length l : length (numbers_of big w l) = length l * w.
Proof. unfold numbers_of. induction l as [|n l IH]; [reflexivity|]. cbn [map concat length]. rewrite app_length, uint_bytes_length, IH. lia. Qed.
Lemma numbers_buffer l : frombuffer w (numbers_of big w l) = Ok (map (uint_bytes big w) l).
Proof.
  unfold frombuffer. rewrite numbers_length, Nat.mod_mul by lia. cbn [Nat.eqb]. f_equal. unfold numbers_of.
  apply chunks_concat; [exact Hw|]. apply Forall_forall. intros x Hx. apply in_map_iff in Hx. destruct Hx as (n & <- & _). apply uint_bytes_length.
Qed.
Lemma packed_pos unpack p : packed unpack big w p -> 0 < length (in_file p).
Proof. intros (f & l & bl & -> & _). rewrite app_length, numbers_length. cbn [length]. lia. Qed.
Lemma sizes_read (unpack : bytes -> result bytes) (blocks : list (bytes * bytes)) pre : Forall (fun b => (N.of_nat (length (fst b)) < capacity w)%N) blocks ->
  mapM (fun j => do b <- of_option IndexError (nth_error (map (uint_bytes big w) (pre ++ map (fun b => N.of_nat (length (fst b))) blocks)) (j + length pre));
                 Ok (N.to_nat (uint_value big b))) (seq 0 (length blocks)) = Ok (map (fun b => length (fst b)) blocks).
Proof.
  intros H. assert (G : forall bl k pre', length pre' = k + length pre -> Forall (fun b : bytes * bytes => (N.of_nat (length (fst b)) < capacity w)%N) bl ->
    mapM (fun j => do b <- of_option IndexError (nth_error (map (uint_bytes big w) (pre' ++ map (fun b => N.of_nat (length (fst b))) bl)) (j + length pre));
                 Ok (N.to_nat (uint_value big b))) (seq k (length bl)) = Ok (map (fun b => length (fst b)) bl)).
  { induction bl as [|b bl IH]; intros k pre' Hl HF; [reflexivity|]. inversion HF as [|? ? H1 H2]; subst. cbn [length seq mapM map].
    rewrite nth_error_map, nth_error_app2, Hl, Nat.sub_diag by lia. cbn [nth_error option_map of_option bind].
    rewrite uint_value_bytes by exact H1. rewrite Nat2N.id.
    specialize (IH (S k) (pre' ++ [N.of_nat (length (fst b))])). rewrite app_length in IH. cbn [length] in IH. rewrite <- app_assoc in IH. cbn [app] in IH.
    rewrite IH by (auto; lia). reflexivity. }
  exact (G blocks 0 pre eq_refl H).
Qed.
Lemma blocks_read (unpack : bytes -> result bytes) data : forall (blocks : list (bytes * bytes)) from rest, Forall (fun b => unpack (fst b) = Ok (snd b)) blocks ->
  skipn from data = concat (map fst blocks) ++ rest -> forall head, head <= from ->
  mapM (fun ab => unpack (slice (head + fst ab) (head + fst ab + snd ab) data))
    (combine (point_offsets (from - head) (map (fun b => length (fst b)) blocks)) (map (fun b => length (fst b)) blocks)) = Ok (map snd blocks).
Proof.
  induction blocks as [|b blocks IH]; intros from rest H E head Hh; [reflexivity|]. inversion H as [|? ? H1 H2]; subst. cbn [map point_offsets combine mapM fst snd].
  cbn [map concat] in E. rewrite <- app_assoc in E.
  assert (Es : slice (head + (from - head)) (head + (from - head) + length (fst b)) data = fst b).
  { unfold slice. replace (head + (from - head)) with from by lia. replace (from + length (fst b) - from) with (length (fst b)) by lia. rewrite E. now apply firstn_exact. }
  rewrite Es, H1. cbn [bind]. replace (from - head + length (fst b)) with (from + length (fst b) - head) by lia.
  rewrite (IH (from + length (fst b)) rest H2); [reflexivity| |lia].
  rewrite <- skipn_skipn, E. now apply skipn_exact.
Qed.
Lemma packed_steps unpack : steps (fun fuel i data acc root => raw_loop_packed unpack fuel big w i data acc root) (packed unpack big w).
Proof.
  split; [now intros []|]. intros fuel i p rest acc root root' Hp [Hb Hc] Hr. pose proof (packed_pos unpack p Hp) as Hl.
  assert (Hne : exists b bs, in_file p ++ rest = b :: bs) by (destruct (in_file p); [cbn in Hl; lia|cbn; eauto]).
  destruct Hne as (b & bs & Eb). cbn [raw_loop_packed]. rewrite Eb at 1. rewrite Hr. cbn [of_option bind].
  destruct Hp as (full & last & blocks & Ein & Ec & Hu & Hn & Hs).
  set (nums := N.of_nat (length blocks) :: full :: last :: map (fun b => N.of_nat (length (fst b))) blocks) in *.
  assert (Hnl : length (numbers_of big w nums) = (3 + length blocks) * w) by (rewrite numbers_length; unfold nums; cbn [length]; now rewrite map_length).
  assert (Ef : first_item big w (firstn w (in_file p ++ rest)) = Ok (N.of_nat (length blocks))).
  { rewrite Ein. unfold nums, numbers_of. cbn [map concat]. rewrite <- !app_assoc, firstn_exact by (symmetry; apply uint_bytes_length). now apply first_item_ok. }
  rewrite Ef. cbn [bind]. rewrite Nat2N.id. rewrite <- Hnl.
  assert (Eh : firstn (length (numbers_of big w nums)) (in_file p ++ rest) = numbers_of big w nums).
  { rewrite Ein, <- app_assoc. now apply firstn_exact. }
  rewrite Eh, numbers_buffer. cbn [bind].
  pose proof (sizes_read unpack blocks [N.of_nat (length blocks); full; last] Hs) as Es. cbn [app length] in Es. fold nums in Es. rewrite Es. cbn [bind].
  pose proof (blocks_read unpack (in_file p ++ rest) blocks (length (numbers_of big w nums)) rest Hu) as Hbl.
  assert (Ek : skipn (length (numbers_of big w nums)) (in_file p ++ rest) = concat (map fst blocks) ++ rest).
  { rewrite Ein, <- app_assoc. now apply skipn_exact. }
  specialize (Hbl Ek _ (Nat.le_refl _)). rewrite Nat.sub_diag in Hbl. rewrite Hbl. cbn [bind]. rewrite <- Ec. fold (sized big w (content p)).
  assert (Et : length (numbers_of big w nums) + fold_right Nat.add 0 (map (fun b => length (fst b)) blocks) = length (in_file p)).
  { rewrite Ein, app_length. f_equal. clear. induction blocks as [|b bl IH]; [reflexivity|]. cbn [map fold_right concat]. now rewrite app_length, IH. }
  rewrite Et. now rewrite (skipn_exact (in_file p)) by reflexivity.
Qed.

(** The text of an array, wherever it begins *)
Lemma sized_read k d tail r : arr_ok d -> b64decode tail = Ok r -> read_uncompressed big w k (b64encode (sized big w d) ++ tail) = frombuffer k d.
Proof.
  intros [Hb Hc] Ht. set (h := uint_bytes big w (N.of_nat (length d))).
  assert (Hh : length h = w) by apply uint_bytes_length.
  assert (Hby : Forall is_byte (h ++ d)) by (apply Forall_app; split; [apply uint_bytes_ok|exact Hb]).
  unfold sized. fold h. unfold read_uncompressed. rewrite b64_roundtrip by auto. rewrite Ht. cbn [bind].
  destruct (Nat.eqb (length (h ++ d) mod 3) 0) eqn:E3; cbn [bind].
  - rewrite <- app_assoc, (firstn_exact h) by auto. unfold h at 1. rewrite first_item_ok by auto. cbn [bind].
    destruct (Nat.eqb_spec (length (h ++ d ++ r)) w) as [El|El].
    + rewrite !app_length in El. assert (d = []) by (destruct d; [auto|cbn in El; lia]).
      assert (r = []) by (destruct r; [auto|cbn in El; lia]). rewrite H, ?H0, !app_nil_r.
      rewrite (skipn_exact (b64encode h)) by auto. rewrite Ht. reflexivity.
    + cbn [bind]. rewrite (skipn_exact h) by auto. now rewrite Nat2N.id, (firstn_exact d) by auto.
  - rewrite (firstn_exact h) by auto. unfold h at 1. rewrite first_item_ok by auto. cbn [bind].
    destruct (Nat.eqb_spec (length (h ++ d)) w) as [El|El].
    + rewrite !app_length in El. assert (d = []) by (destruct d; [auto|cbn in El; lia]). rewrite H, ?H0, !app_nil_r.
      rewrite (skipn_exact (b64encode h)) by auto. rewrite Ht. reflexivity.
    + cbn [bind]. rewrite (skipn_exact h) by auto. now rewrite Nat2N.id, firstn_all.
Qed.
Lemma text_decodes ds : Forall arr_ok ds -> exists r, b64decode (text_of ds) = Ok r.
Proof.
  unfold text_of. induction 1 as [|d ds Hd H [r IH]]; [exists []; reflexivity|]. cbn [map concat]. rewrite b64_roundtrip by now apply sized_ok.
  rewrite IH. cbn [bind]. destruct (Nat.eqb _ 0); eauto.
Qed.
Lemma array_at ps : forall i j o, Forall piece_ok ps -> In o (olds i ps) -> exists d n p,
  dget o (combine (olds i ps) (map content ps)) = Some d /\ dget o (combine (olds i ps) (news j ps)) = Some (str_of_nat n) /\ n = j + p /\ arr_ok d /\
  forall k, read_uncompressed big w k (skipn p (texts ps)) = frombuffer k d.
Proof.
  induction ps as [|d ps IH]; intros i j o Hd Hi; [destruct Hi|]. inversion Hd as [|? ? [_ Hd1] Hds]; subst.
  change (olds i (d :: ps)) with (str_of_nat i :: olds (i + length (in_file d)) ps) in *.
  change (news j (d :: ps)) with (str_of_nat j :: news (j + enc_len (content d)) ps). cbn [map combine dget].
  destruct (String.eqb_spec o (str_of_nat i)) as [E|E].
  - exists (content d), j, 0. rewrite Nat.add_0_r. repeat split; [apply Hd1|apply Hd1|]. intros k. cbn [skipn]. unfold texts, text_of. cbn [map concat].
    assert (Ho : Forall arr_ok (map content ps)).
    { clear -Hds. induction Hds as [|x l [_ Hx] H IH]; cbn [map]; constructor; auto. }
    destruct (text_decodes (map content ps) Ho) as [r Hr]. exact (sized_read k (content d) _ r Hd1 Hr).
  - destruct Hi as [Hi|Hi]; [congruence|]. destruct (IH (i + length (in_file d)) (j + enc_len (content d)) o Hds Hi) as (d' & n & p & H1 & H2 & H3 & H4 & H5).
    exists d', n, (enc_len (content d) + p). rewrite H1, H2. repeat split; [lia|apply H4|apply H4|]. intros k. rewrite <- H5. f_equal. unfold texts, text_of. cbn [map concat].
    rewrite <- sized_text_length. rewrite <- skipn_skipn. now rewrite (skipn_exact (b64encode (sized big w (content d)))) by reflexivity.
Qed.
End Loop.

(** ** Documents whose arrays read the same *)
Section Sim.
Context {V : Type} (nk : unums V) (pk : packers) (native : bool).
Variables h1 h2 : uhead.
Hypothesis Hh : h_big h1 = h_big h2.
Inductive sim : xnode -> xnode -> Prop :=
| Sim c1 c2 : xtag c1 = xtag c2 -> (forall k, k <> "format" -> k <> "offset" -> dget k (xattrs c1) = dget k (xattrs c2)) ->
    read_data pk h1 c1 = read_data pk h2 c2 -> Forall2 sim (xchildren c1) (xchildren c2) -> sim c1 c2.

Lemma sim_sound a b : sim a b -> read_sound pk h1 a = read_sound pk h2 b.
Proof. intros [c1 c2 Ht Ha Hr Hc]. unfold read_sound. now rewrite Hr. Qed.
Lemma sim_nc a b : sim a b -> nc_attr a = nc_attr b.
Proof. intros [c1 c2 Ht Ha Hr Hc]. unfold nc_attr. rewrite Ha by discriminate. reflexivity. Qed.
Lemma sim_attr a b k : sim a b -> k <> "format" -> k <> "offset" -> dget k (xattrs a) = dget k (xattrs b).
Proof. intros [c1 c2 Ht Ha Hr Hc]. apply Ha. Qed.
Lemma sim_tag a b : sim a b -> xtag a = xtag b.
Proof. now intros []. Qed.
Lemma sim_children a b : sim a b -> Forall2 sim (xchildren a) (xchildren b).
Proof. now intros []. Qed.
Lemma same_rows r : num_rows nk h1 r = num_rows nk h2 r.
Proof. unfold num_rows. now rewrite Hh. Qed.

Lemma foldM_sim {A} (f1 f2 : A -> xnode -> result A) cs1 cs2 : Forall2 sim cs1 cs2 -> (forall a c1 c2, sim c1 c2 -> f1 a c1 = f2 a c2) ->
  forall a, foldM f1 a cs1 = foldM f2 a cs2.
Proof.
  intros H Hf. induction H as [|c1 c2 cs1 cs2 Hc H IH]; intros a; [reflexivity|]. cbn [foldM]. rewrite (Hf a c1 c2 Hc).
  destruct (f2 a c2); cbn [bind]; [apply IH|reflexivity].
Qed.
Lemma points_sim np a b : sim a b -> read_points_elem nk pk h1 np a = read_points_elem nk pk h2 np b.
Proof.
  intros H. unfold read_points_elem. apply sim_children in H. destruct H as [|x y l1 l2 Hx Hl]; [reflexivity|]. destruct Hl; [|reflexivity].
  rewrite (sim_tag _ _ Hx), (sim_sound _ _ Hx), (sim_nc _ _ Hx). destruct (negb _); [reflexivity|]. destruct (read_sound pk h2 y); [|reflexivity]. cbn [bind].
  now rewrite same_rows.
Qed.
Lemma ints_sim a b : sim a b -> read_int_arrays pk h1 (xchildren a) = read_int_arrays pk h2 (xchildren b).
Proof.
  intros H. unfold read_int_arrays. apply foldM_sim; [now apply sim_children|]. intros d x y Hx.
  rewrite (sim_tag _ _ Hx), (sim_sound _ _ Hx), (sim_attr _ _ "Name" Hx), Hh by discriminate. reflexivity.
Qed.
Lemma cells_sim nc a b : sim a b -> read_cells_elem pk h1 nc a = read_cells_elem pk h2 nc b.
Proof. intros H. unfold read_cells_elem. now rewrite (ints_sim a b H). Qed.
Lemma pdata_sim a b : sim a b -> read_point_data nk pk h1 (xchildren a) = read_point_data nk pk h2 (xchildren b).
Proof.
  intros H. unfold read_point_data. apply foldM_sim; [now apply sim_children|]. intros d x y Hx.
  rewrite (sim_tag _ _ Hx), (sim_attr _ _ "Name" Hx) by discriminate. inversion Hx as [? ? _ _ Hr _]; subst. rewrite Hr.
  destruct (negb _); [reflexivity|]. destruct (read_data pk h2 y) as [[r|]|]; cbn [bind]; [|reflexivity|reflexivity].
  now rewrite same_rows.
Qed.
Lemma named_sim l1 l2 : Forall2 sim l1 l2 -> read_named nk pk h1 l1 = read_named nk pk h2 l2.
Proof.
  intros H. unfold read_named. apply foldM_sim; [exact H|]. intros d x y Hx.
  rewrite (sim_sound _ _ Hx), (sim_attr _ _ "Name" Hx) by discriminate. destruct (read_sound pk h2 y); [|reflexivity]. cbn [bind]. now rewrite same_rows.
Qed.
Lemma tags_sim (f : string -> bool) l1 l2 : Forall2 sim l1 l2 -> forallb (fun c => f (xtag c)) l1 = forallb (fun c => f (xtag c)) l2.
Proof. induction 1 as [|x y l1 l2 Hx H IH]; [reflexivity|]. cbn [forallb]. now rewrite (sim_tag _ _ Hx), IH. Qed.
Lemma cdata_sim a b : sim a b -> read_cell_data nk pk h1 (xchildren a) = read_cell_data nk pk h2 (xchildren b).
Proof.
  intros H. apply sim_children in H. unfold read_cell_data. rewrite (tags_sim (fun t => String.eqb t "DataArray") _ _ H). now rewrite (named_sim _ _ H).
Qed.
Lemma piece_sim u a b : sim a b -> read_piece nk pk h1 u a = read_piece nk pk h2 u b.
Proof.
  intros H. unfold read_piece. rewrite (sim_attr _ _ "NumberOfPoints" H), (sim_attr _ _ "NumberOfCells" H) by discriminate.
  destruct (of_option KeyError (dget "NumberOfPoints" (xattrs b))) as [s|]; cbn [bind]; [|reflexivity].
  destruct (int_attr s) as [np|]; cbn [bind]; [|reflexivity].
  destruct (of_option KeyError (dget "NumberOfCells" (xattrs b))) as [s2|]; cbn [bind]; [|reflexivity].
  destruct (int_attr s2) as [nc|]; cbn [bind]; [|reflexivity].
  apply foldM_sim; [now apply sim_children|]. intros v x y Hx.
  rewrite (sim_tag _ _ Hx), (points_sim np _ _ Hx), (cells_sim nc _ _ Hx), (pdata_sim _ _ Hx), (cdata_sim _ _ Hx). reflexivity.
Qed.
Lemma filter_sim l1 l2 : Forall2 sim l1 l2 ->
  Forall2 sim (filter (fun c => String.eqb (xtag c) "Piece") l1) (filter (fun c => String.eqb (xtag c) "Piece") l2).
Proof. induction 1 as [|x y l1 l2 Hx H IH]; [constructor|]. cbn [filter]. rewrite (sim_tag _ _ Hx). destruct (String.eqb _ _); [now constructor|exact IH]. Qed.
Lemma field_sim l1 l2 : Forall2 sim l1 l2 ->
  Forall2 sim (flat_map (fun c => if String.eqb (xtag c) "FieldData" then xchildren c else []) l1)
              (flat_map (fun c => if String.eqb (xtag c) "FieldData" then xchildren c else []) l2).
Proof.
  induction 1 as [|x y l1 l2 Hx H IH]; [constructor|]. cbn [flat_map]. rewrite (sim_tag _ _ Hx). apply Forall2_app; [|exact IH].
  destruct (String.eqb _ _); [now apply sim_children|constructor].
Qed.

Definition grid_mesh (h : uhead) (g : xnode) : result (vmesh V) :=
  let cs := xchildren g in
  if negb (forallb (fun c => smem (xtag c) ["Piece"; "FieldData"]) cs) then Err ReadError else
  do fd <- read_named nk pk h (flat_map (fun c => if String.eqb (xtag c) "FieldData" then xchildren c else []) cs);
  match filter (fun c => String.eqb (xtag c) "Piece") cs with
  | [] => Err ReadError
  | ps =>
      do u <- foldM (read_piece nk pk h) piece0 ps;
      let raws := match up_craw u with [] => repeat [] (length (up_cells u)) | l => l end in
      if negb (Nat.eqb (length raws) (length (up_cells u))) then Err ReadError else
      match up_points u with
      | [] => Err ReadError
      | pts =>
          do p <- concat_arrays pts;
          do pd <- merge_point_data (up_pdata u);
          do c <- organize_cells (point_offsets 0 (map (fun a => length (va_rows a)) pts)) (up_cells u) raws;
          build_mesh (Some (va_dtype p, va_rows p)) (fst c) pd (snd c) fd
      end
  end.
Lemma grid_sim g1 g2 : sim g1 g2 -> grid_mesh h1 g1 = grid_mesh h2 g2.
Proof.
  intros H. apply sim_children in H. unfold grid_mesh. rewrite (tags_sim (fun t => smem t ["Piece"; "FieldData"]) _ _ H), (named_sim _ _ (field_sim _ _ H)).
  destruct (negb _); [reflexivity|]. destruct (read_named _ _ _ _); [|reflexivity]. cbn [bind].
  destruct (filter_sim _ _ H) as [|x y l1 l2 Hx Hl]; [reflexivity|].
  rewrite (foldM_sim (read_piece nk pk h1) (read_piece nk pk h2) (x :: l1) (y :: l2)); [reflexivity|now constructor|]. intros u c1 c2. apply piece_sim.
Qed.
End Sim.

(** ** The document with arrays in the text of the elements *)
Section Inline.
Context {V : Type} (nk : unums V) (pk : packers) (native : bool).
Variables (big : bool) (w : nat) (ht : string) (ds : list stored).
Hypothesis Hw : dget ht header_widths = Some w.
Hypothesis Hds : Forall (piece_ok w) ds.
Let h1 := UHead None ht big (Some (texts big w ds)).
Let h2 := UHead None ht big None.
Let f := ren (combine (olds 0 ds) (news w 0 ds)).
Let src := sources ds.

Lemma clean_strip l : forallb b64_ok l = true -> cstrip l = l.
Proof.
  intros H. destruct (clean_plain l H) as [_ Hs]. unfold cstrip. assert (E : strip (str l) = str l); [|rewrite E; apply ch_str].
  destruct l as [|c l]; [reflexivity|]. apply strip_word. unfold word. change (str (c :: l)) with (String c (str l)) in *. exact Hs.
Qed.
Lemma w_pos : 0 < w. Proof. eapply header_width_pos. exact Hw. Qed.

Lemma one_read t a x cs1 cs2 : (forall o, In o (own_offset (XNode t a x cs1)) -> In o (olds 0 ds)) ->
  String.eqb t "DataArray" || negb (is_appended a) = true ->
  read_data pk h1 (reoffset_one f (XNode t a x cs1)) = read_data pk h2 (inline_one big w src (XNode t a x cs2)).
Proof.
  intros Ho Ha. assert (Ek : sources ds = combine (olds 0 ds) (map content ds)) by reflexivity.
  assert (Hplain : forall a1 a2, dget "format" a1 = dget "format" a -> dget "format" a2 = dget "format" a ->
    (forall k, k <> "format" -> k <> "offset" -> dget k a1 = dget k a2) -> (is_appended a = false \/ (dget "offset" a1 = None /\ dget "offset" a2 = None)) ->
    read_data pk h1 (XNode t a1 x cs1) = read_data pk h2 (XNode t a2 x cs2)).
  { intros a1 a2 F1 F2 Hk Hf. unfold read_data, nc_attr. cbn [xattrs xtext]. rewrite F1, F2, (Hk "type"), (Hk "NumberOfComponents") by discriminate.
    destruct (of_option KeyError (dget "type" a2)) as [vt|]; [|reflexivity]. cbn [bind]. destruct (of_option ReadError (dget vt vtu_dtypes)) as [dt|]; [|reflexivity]. cbn [bind].
    unfold is_appended in Hf. destruct (dget "format" a) as [fm|]; [|reflexivity].
    destruct (String.eqb fm "ascii"); [reflexivity|]. destruct (String.eqb fm "binary"); [reflexivity|].
    destruct Hf as [Hf|[Hf1 Hf2]]; [rewrite Hf; reflexivity|]. rewrite Hf1, Hf2. reflexivity. }
  unfold reoffset_one, inline_one. unfold own_offset in Ho. cbn [xtag xattrs] in Ho.
  destruct (dget "offset" a) as [o|] eqn:Eo; [|apply Hplain; auto].
  destruct (String.eqb t "DataArray") eqn:Et; cbn [orb andb] in *.
  - specialize (Ho o ltac:(now left)). destruct (array_at big w w_pos ds 0 0 o Hds Ho) as (d & n & p & H1 & H2 & H3 & H4 & H5).
    cbn in H3. subst p. unfold src. rewrite Ek, H1. destruct (is_appended a) eqn:Ea.
    + assert (Ef : dget "format" a = Some "appended").
      { unfold is_appended in Ea. destruct (dget "format" a) as [fm|]; [|discriminate]. apply String.eqb_eq in Ea. now subst. }
      unfold read_data, nc_attr. cbn [xattrs xtext].
      rewrite !dget_dset. cbn [String.eqb Ascii.eqb Bool.eqb]. rewrite Ef.
      destruct (of_option KeyError (dget "type" a)) as [vt|]; [|reflexivity]. cbn [bind]. destruct (of_option ReadError (dget vt vtu_dtypes)) as [dt|]; [|reflexivity]. cbn [bind].
      cbn [String.eqb Ascii.eqb Bool.eqb of_option bind]. unfold f, ren. rewrite H2. rewrite int_attr_count. cbn [bind h_app h1 of_option].
      destruct (Z.ltb_spec (Z.of_nat n) 0); [lia|]. rewrite Nat2Z.id. unfold read_binary. cbn [h1 h2 h_type h_comp h_big]. rewrite Hw. cbn [of_option bind].
      rewrite H5. destruct (b64encode (sized big w d)) as [|c0 tx] eqn:Etx.
      { pose proof (sized_text_length big w d) as L. rewrite Etx in L. unfold enc_len in L. cbn [length] in L. pose proof w_pos.
        assert (0 < (w + length d + 2) / 3) by (apply Nat.div_str_pos; lia). lia. }
      rewrite <- Etx. rewrite clean_strip by apply b64encode_clean.
      pose proof (sized_read big w w_pos (width_of dt) d [] [] H4 eq_refl) as Hr. rewrite app_nil_r in Hr. rewrite Hr. reflexivity.
    + apply Hplain; auto; rewrite ?dget_dset; auto.
      intros k _ Hk. rewrite dget_dset. destruct (String.eqb_spec k "offset"); congruence.
  - apply negb_true_iff in Ha. assert (E2 : match dget o src with Some _ => XNode t a x cs2 | None => XNode t a x cs2 end = XNode t a x cs2) by (destruct (dget o src); reflexivity).
    rewrite E2. apply Hplain; auto.
Qed.

Lemma tag_reoffset c : xtag (reoffset_one f (reoffset f c)) = xtag c.
Proof. destruct c as [t a x cs]. cbn [reoffset]. unfold reoffset_one. destruct (dget "offset" a); [destruct (String.eqb t "DataArray")|]; reflexivity. Qed.
Lemma inline_cases n : inline_one big w src n = n \/ exists t a x cs d, n = XNode t a x cs /\ inline_one big w src n = XNode t (dset "format" "binary" a) (b64encode (sized big w d)) cs.
Proof.
  destruct n as [t a x cs]. unfold inline_one. destruct (dget "offset" a) as [o|]; [|now left]. destruct (dget o src) as [d|]; [|now left].
  destruct (String.eqb t "DataArray" && is_appended a); [|now left]. right. do 5 eexists. split; reflexivity.
Qed.
Lemma tag_inline c : xtag (inline_one big w src (inline big w src c)) = xtag c.
Proof. destruct (inline_cases (inline big w src c)) as [->|(t & a & x & cs & d & E & ->)]; [now destruct c|]. destruct c. cbn [inline] in E. injection E as <- <- <- <-. reflexivity. Qed.

Lemma tree_sim n : (forall o, In o (own_offset n ++ offsets n) -> In o (olds 0 ds)) -> only_arrays n = true ->
  sim pk h1 h2 (reoffset_one f (reoffset f n)) (inline_one big w src (inline big w src n)).
Proof.
  induction n as [t a x cs IH] using xnode_rect'. intros Ho Ha. cbn [only_arrays] in Ha. apply andb_true_iff in Ha. destruct Ha as [Ha Hc].
  assert (Hch : Forall2 (sim pk h1 h2) (map (fun c => reoffset_one f (reoffset f c)) cs) (map (fun c => inline_one big w src (inline big w src c)) cs)).
  { rewrite forallb_forall in Hc. rewrite Forall_forall in IH. assert (Hin : forall c, In c cs -> sim pk h1 h2 (reoffset_one f (reoffset f c)) (inline_one big w src (inline big w src c))).
    { intros c Hi. apply IH; auto. intros o Hx. apply Ho. apply in_app_iff. right. cbn [offsets]. apply in_flat_map. eauto. }
    clear -Hin. induction cs as [|c cs IH]; [constructor|]. cbn [map]. constructor; [apply Hin; now left|]. apply IH. intros. apply Hin. now right. }
  constructor.
  - now rewrite tag_reoffset, tag_inline.
  - intros k K1 K2. cbn [reoffset inline]. assert (E1 : dget k (xattrs (reoffset_one f (XNode t a x (map (fun c => reoffset_one f (reoffset f c)) cs)))) = dget k a).
    { unfold reoffset_one. destruct (dget "offset" a); [destruct (String.eqb t "DataArray")|]; cbn [xattrs]; [|reflexivity|reflexivity]. rewrite dget_dset.
      destruct (String.eqb_spec k "offset"); congruence. }
    rewrite E1. destruct (inline_cases (XNode t a x (map (fun c => inline_one big w src (inline big w src c)) cs))) as [->|(t' & a' & x' & cs' & d & E & ->)]; [reflexivity|].
    injection E as <- <- <- <-. cbn [xattrs]. rewrite dget_dset. destruct (String.eqb_spec k "format"); congruence.
  - cbn [reoffset inline]. apply one_read; [|exact Ha]. intros o Hx. apply Ho. apply in_app_iff. left. exact Hx.
  - cbn [reoffset inline]. assert (E1 : forall l, xchildren (reoffset_one f (XNode t a x l)) = l).
    { intros l. unfold reoffset_one. destruct (dget "offset" a); [destruct (String.eqb t "DataArray")|]; reflexivity. }
    rewrite E1. destruct (inline_cases (XNode t a x (map (fun c => inline_one big w src (inline big w src c)) cs))) as [->|(t' & a' & x' & cs' & d & E & ->)]; [exact Hch|].
    injection E as <- <- <- <-. exact Hch.
Qed.
End Inline.

(** ** Whole files *)
Lemma starts_ge ls : forall from x, In x (starts from ls) -> from <= x.
Proof. induction ls as [|n ls IH]; intros from x; [intros []|]. cbn [starts]. intros [->|H]; [lia|]. apply IH in H. lia. Qed.
Lemma starts_NoDup ls : Forall (fun n => 0 < n) ls -> forall from, NoDup (starts from ls).
Proof.
  induction 1 as [|n ls Hn H IH]; intros from; cbn [starts]; constructor; [|apply IH]. intros Hi. apply starts_ge in Hi. lia.
Qed.
Lemma starts_length ls : forall from, length (starts from ls) = length ls.
Proof. induction ls; intros; cbn; auto. Qed.

Lemma NoDup_two {A} (a b : list A) : NoDup a -> NoDup b -> (forall x, In x a -> In x b -> False) -> NoDup (a ++ b).
Proof.
  induction a as [|x a IH]; intros Ha Hb H; [exact Hb|]. inversion Ha as [|? ? Hn Ha']; subst. cbn. constructor.
  - rewrite in_app_iff. intros [Hx|Hx]; [auto|]. apply (H x); [now left|exact Hx].
  - apply IH; auto. intros y Hy. apply H. now right.
Qed.
Lemma NoDup_firstn {A} k (l : list A) : NoDup l -> NoDup (firstn k l).
Proof. intros H. rewrite <- (firstn_skipn k l) in H. now apply NoDup_app_remove_r in H. Qed.
Lemma NoDup_skipn {A} k (l : list A) : NoDup l -> NoDup (skipn k l).
Proof. intros H. rewrite <- (firstn_skipn k l) in H. now apply NoDup_app_remove_l in H. Qed.
Lemma in_firstn {A} (x : A) k l : In x (firstn k l) -> exists i, i < k /\ nth_error l i = Some x.
Proof.
  intros H. apply In_nth_error in H. destruct H as [i Hi]. assert (i < length (firstn k l)) by (apply nth_error_Some; congruence).
  rewrite firstn_length in *. exists i. split; [lia|]. rewrite <- (firstn_skipn k l), nth_error_app1 by (rewrite firstn_length; lia). exact Hi.
Qed.
Lemma in_skipn {A} (x : A) k l : In x (skipn k l) -> exists i, k <= i /\ nth_error l i = Some x.
Proof.
  intros H. assert (k <= length l). { destruct (Nat.le_gt_cases k (length l)); [auto|]. rewrite skipn_all2 in H by lia. destruct H. }
  apply In_nth_error in H. destruct H as [i Hi]. exists (k + i). split; [lia|].
  rewrite <- (firstn_skipn k l), nth_error_app2 by (rewrite firstn_length; lia). rewrite firstn_length, Nat.min_l by lia.
  now replace (k + i - k) with i by lia.
Qed.
Lemma no_collision_NoDup w ds : 0 < w -> Forall (fun p => 0 < length (in_file p)) ds -> no_collision w ds -> forall k, NoDup (firstn k (news w 0 ds) ++ skipn k (olds 0 ds)).
Proof.
  intros Hw Hl Hc k. unfold news, olds. rewrite firstn_map, skipn_map, <- map_app. apply FinFun.Injective_map_NoDup; [intros x y E; unfold str_of_nat in E; apply str_of_N_inj in E; lia|].
  assert (Hp : 0 < 4) by lia. apply NoDup_two.
  - apply NoDup_firstn, starts_NoDup, Forall_forall. intros n Hn. apply in_map_iff in Hn. destruct Hn as (d & <- & _). unfold enc_len.
    assert (0 < (w + length (content d) + 2) / 3) by (apply Nat.div_str_pos; lia). lia.
  - apply NoDup_skipn, starts_NoDup, Forall_forall. intros n Hn. apply in_map_iff in Hn. destruct Hn as (d & <- & Hd). rewrite Forall_forall in Hl. now apply Hl.
  - intros x Hx Hy. apply in_firstn in Hx. apply in_skipn in Hy. destruct Hx as (i & Hi & Ei). destruct Hy as (j & Hj & Ej).
    apply (Hc i j x x); auto. lia.
Qed.

Lemma find_sub_first p s k : first_at p s k -> find_sub p s = Some k.
Proof.
  revert k. induction s as [|c s IH]; intros k [[r Hr] Hn].
  - rewrite skipn_nil in Hr. destruct p; [|discriminate]. destruct k as [|k]; [reflexivity|]. exfalso. apply (Hn 0); [lia|]. now exists [].
  - destruct k as [|k].
    + cbn [skipn] in Hr. cbn [find_sub]. rewrite Hr. now rewrite strip_prefix_app.
    + cbn [find_sub]. destruct (strip_prefix p (c :: s)) as [r'|] eqn:E; [exfalso; apply (Hn 0); [lia|]; apply strip_prefix_spec in E; exists r'; exact E|].
      rewrite (IH k); [reflexivity|]. split; [now exists r|]. intros j Hj. apply (Hn (S j)). lia.
Qed.
Lemma span_stop' (P : ascii -> bool) l c r : forallb P l = true -> P c = false -> span P (l ++ c :: r) = (l, c :: r).
Proof. intros H Hc. induction l as [|d l IH]; cbn in *; [now rewrite Hc|]. apply andb_true_iff in H. destruct H as [-> H]. now rewrite IH. Qed.
Lemma not_in_span c l : ~ In c l -> forallb (fun x => negb (Ascii.eqb x c)) l = true.
Proof.
  induction l as [|d l IH]; intros H; [reflexivity|]. cbn [forallb]. rewrite IH by (intros X; apply H; now right).
  destruct (Ascii.eqb_spec d c); [exfalso; apply H; now left|reflexivity].
Qed.
Lemma find_appended_first before body rest : (exists b c, body = b ++ [c; quote]) -> ~ In ">"%char body ->
  (forall j, j < length before -> ~ exists r, skipn j (before ++ ch "<AppendedData" ++ body ++ ">"%char :: rest) = ch "<AppendedData" ++ r) ->
  find_appended (before ++ ch "<AppendedData" ++ body ++ ">"%char :: rest) = Some (before ++ ch "<AppendedData" ++ body ++ [">"%char], rest).
Proof.
  intros (b & c & Hb) Hg. induction before as [|d before IH]; intros Hn.
  - cbn [app].
    assert (E : find_appended (ch "<AppendedData" ++ body ++ ">"%char :: rest) =
      match (match strip_prefix (ch "<AppendedData") (ch "<AppendedData" ++ body ++ ">"%char :: rest) with
             | Some r => let '(body, r2) := span (fun c => negb (Ascii.eqb c ">")) r in
                 match r2, rev body with
                 | _ :: rest, q :: _ :: _ => if Ascii.eqb q quote then Some (ch "<AppendedData" ++ body ++ [">"%char], rest) else None
                 | _, _ => None end
             | None => None end) with
      | Some x => Some x
      | None => match ch "<AppendedData" ++ body ++ ">"%char :: rest with
                | [] => None | c :: s' => match find_appended s' with Some (a, b) => Some (c :: a, b) | None => None end end end) by reflexivity.
    rewrite E. rewrite strip_prefix_app, (span_stop' _ body ">"%char rest) by (auto using not_in_span; reflexivity).
    rewrite Hb at 1. rewrite rev_app_distr. cbn [rev app]. rewrite Ascii.eqb_refl. reflexivity.
  - cbn [app]. assert (E : forall c s, find_appended (c :: s) = 
      match (match strip_prefix (ch "<AppendedData") (c :: s) with
             | Some r => let '(body, r2) := span (fun c => negb (Ascii.eqb c ">")) r in
                 match r2, rev body with
                 | _ :: rest, q :: _ :: _ => if Ascii.eqb q quote then Some (ch "<AppendedData" ++ body ++ [">"%char], rest) else None
                 | _, _ => None end
             | None => None end) with
      | Some x => Some x
      | None => match find_appended s with Some (a, b) => Some (c :: a, b) | None => None end end) by reflexivity.
    rewrite E. destruct (strip_prefix (ch "<AppendedData") (d :: before ++ ch "<AppendedData" ++ body ++ ">"%char :: rest)) as [r|] eqn:Es.
    { exfalso. apply (Hn 0); [cbn; lia|]. apply strip_prefix_spec in Es. exists r. exact Es. }
    rewrite IH; [reflexivity|]. intros j Hj. apply (Hn (S j)). cbn. lia.
Qed.
Lemma after_char_first c l r : ~ In c l -> after_char c (l ++ c :: r) = Some r.
Proof. intros H. unfold after_char. rewrite span_stop' by (auto using not_in_span; now rewrite Ascii.eqb_refl). reflexivity. Qed.
Lemma before_last_last c l r : ~ In c r -> before_last c (l ++ c :: r) = l.
Proof.
  intros H. unfold before_last. rewrite rev_app_distr. cbn [rev]. rewrite <- app_assoc. cbn [app].
  rewrite after_char_first by (now rewrite <- in_rev). apply rev_involutive.
Qed.
Lemma bytes_chars d : Forall is_byte d -> char_bytes (map ascii_of_N d) = d.
Proof.
  unfold char_bytes. rewrite map_map. induction 1 as [|b d Hb H IH]; [reflexivity|]. cbn [map]. rewrite IH. f_equal.
  apply N_ascii_embedding. exact Hb.
Qed.

Section File.
Context {V : Type} (nk : unums V) (pk : packers) (native : bool).

Lemma set_appended_last text cs t a x l : Forall (fun c => xtag c <> "AppendedData") cs -> t = "AppendedData" ->
  set_appended text (cs ++ [XNode t a x l]) = Some (cs ++ [XNode t (dset "encoding" "base64" a) text l]).
Proof.
  intros H ->. induction H as [|[t' a' x' l'] cs Hc H IH]; [reflexivity|]. cbn [app set_appended]. cbn [xtag] in Hc.
  destruct (String.eqb_spec t' "AppendedData"); [congruence|]. now rewrite IH.
Qed.
Lemma get_grid_sim h1 h2 text cs1 cs2 : Forall2 (sim pk h1 h2) cs1 cs2 -> Forall (fun c => xtag c <> "AppendedData") cs1 ->
  forall a l g1 g2, dget "encoding" a = Some "base64" -> forallb b64_ok text = true ->
  match g1, g2 with Some x, Some y => sim pk h1 h2 x y | None, None => True | _, _ => False end ->
  match get_grid (cs1 ++ [XNode "AppendedData" a ("_"%char :: text) l]) g1 None, get_grid cs2 g2 None with
  | Ok (x, s), Ok (y, s') => sim pk h1 h2 x y /\ s = Some text /\ s' = None
  | Err e, Err e' => e = e'
  | _, _ => False
  end.
Proof.
  intros H Hn a l. revert Hn. induction H as [|x y cs1 cs2 Hx H IH]; intros Hn g1 g2 Ha Ht Hg.
  - cbn [app get_grid xtag xattrs xtext]. cbn [String.eqb Ascii.eqb Bool.eqb negb]. rewrite Ha. cbn [of_option bind]. cbn [String.eqb Ascii.eqb Bool.eqb negb].
    assert (E : cstrip ("_"%char :: text) = "_"%char :: text) by (apply clean_strip; exact Ht).
    rewrite E. cbn [Ascii.eqb Bool.eqb]. destruct g1, g2; try contradiction; auto.
  - inversion Hn as [|? ? Hn1 Hn2]; subst. cbn [app get_grid]. rewrite <- (sim_tag _ _ _ _ _ Hx).
    destruct (String.eqb (xtag x) "UnstructuredGrid").
    + destruct g1, g2; try contradiction; [reflexivity|]. apply (IH Hn2 (Some x) (Some y)); auto.
    + destruct (String.eqb_spec (xtag x) "AppendedData"); [congruence|]. cbn [negb]. reflexivity.
Qed.

Lemma appended_bytes w ds : Forall (piece_ok w) ds -> Forall is_byte (appended ds).
Proof. unfold appended. induction 1 as [|d ds Hd H IH]; [constructor|]. cbn [map concat]. apply Forall_app. split; [apply Hd|exact IH]. Qed.
Lemma dget_uncompressed {V'} (k : string) (a : dict V') : dget k (filter (fun kv => negb (String.eqb (fst kv) "compressor")) a) = if String.eqb k "compressor" then None else dget k a.
Proof.
  induction a as [|[k' v] a IH]; [cbn; now destruct (String.eqb k _)|]. cbn [filter fst]. destruct (String.eqb_spec k' "compressor") as [->|E]; cbn [negb dget].
  - rewrite IH. destruct (String.eqb k "compressor"); reflexivity.
  - rewrite IH. destruct (String.eqb_spec k k') as [->|E']; [|reflexivity]. destruct (String.eqb_spec k' "compressor"); [congruence|reflexivity].
Qed.
Lemma uncompressed_id {V'} (a : dict V') : dget "compressor" a = None -> filter (fun kv => negb (String.eqb (fst kv) "compressor")) a = a.
Proof.
  induction a as [|[k' v] a IH]; intros H; [reflexivity|]. cbn [dget] in H. cbn [filter fst]. rewrite String.eqb_sym. destruct (String.eqb "compressor" k'); [discriminate|].
  cbn [negb]. now rewrite IH.
Qed.
Lemma remove_filter (k : string) (a : dict string) : remove_attr k a = filter (fun kv => negb (String.eqb (fst kv) k)) a.
Proof. unfold remove_attr. apply filter_ext. intros kv. now rewrite String.eqb_sym. Qed.
(** The loop, with or without compression, and the attributes of the root afterwards *)
Definition unraw (big : bool) (w : nat) (data : bytes) (root : xnode) : result (xnode * chars) :=
  match dget "compressor" (xattrs root) with
  | None => raw_loop (S (length data)) big w 0 data [] root
  | Some c =>
      if negb (smem c ["vtkLZMADataCompressor"; "vtkZLibDataCompressor"]) then Err KeyError else
      do x <- raw_loop_packed (unpack pk c) (S (length data)) big w 0 data [] root;
      let 'XNode t a x' cs := fst x in Ok (XNode t (remove_attr "compressor" a) x' cs, snd x)
  end.
Lemma unraw_ok big w ds t a x cs : 0 < w ->
  (match dget "compressor" a with
   | None => Forall (plain big w) ds
   | Some c => In c ["vtkLZMADataCompressor"; "vtkZLibDataCompressor"]%string /\ Forall (packed (unpack pk c) big w) ds
   end) -> Forall (piece_ok w) ds -> no_collision w ds -> Permutation (offsets (XNode t a x cs)) (olds 0 ds) ->
  unraw big w (appended ds) (XNode t a x cs) =
  Ok (reoffset (ren (combine (olds 0 ds) (news w 0 ds))) (XNode t (filter (fun kv => negb (String.eqb (fst kv) "compressor")) a) x cs), texts big w ds).
Proof.
  intros Hw Hk Hd Hc Hp.
  assert (Hpos : Forall (fun p => 0 < length (in_file p)) ds).
  { destruct (dget "compressor" a) as [c|]; [destruct Hk as [_ Hk]|]; eapply Forall_impl; try exact Hk; intros p; [apply packed_pos|apply plain_pos]; exact Hw. }
  assert (Hlen : length ds <= length (appended ds)).
  { clear -Hpos. unfold appended. induction Hpos as [|d ds Hd H IH]; [cbn; lia|]. cbn [map concat length]. rewrite app_length. lia. }
  assert (Hn : forall k, NoDup ([] ++ firstn k (news w (@length ascii []) ds) ++ skipn k (olds 0 ds))) by (cbn [length app]; now apply no_collision_NoDup).
  unfold unraw. cbn [xattrs]. destruct (dget "compressor" a) as [c|] eqn:Ec.
  - destruct Hk as [Hin Hk]. assert (Es : smem c ["vtkLZMADataCompressor"; "vtkZLibDataCompressor"] = true).
    { destruct Hin as [<-|[<-|[]]]; reflexivity. }
    rewrite Es. cbn [negb].
    pose proof (loop_ok big w Hw _ _ (packed_steps big w Hw (unpack pk c)) ds (S (length (appended ds))) 0 [] _ [] Hk Hd ltac:(lia) Hp Hn) as E. cbv beta in E. rewrite E.
    cbn [bind fst snd reoffset app length]. now rewrite remove_filter.
  - pose proof (loop_ok big w Hw _ _ (plain_steps big w Hw) ds (S (length (appended ds))) 0 [] _ [] Hk Hd ltac:(lia) Hp Hn) as E. cbv beta in E. rewrite E.
    cbn [app length]. now rewrite uncompressed_id.
Qed.
Lemma text_clean big w ds : forallb b64_ok (text_of big w ds) = true.
Proof. unfold text_of. induction ds as [|d ds IH]; [reflexivity|]. cbn [map concat]. now rewrite forallb_app, b64encode_clean, IH. Qed.

Lemma raw_reads big w ds root s : raw_vtu_file ds root s -> raw_document pk big w ds root -> no_collision w ds ->
  read_vtu nk pk native s = read_root nk pk native (inline_document big w ds root).
Proof.
  intros [before body gap gap' after head foot s' Hfa Hbody Hgt Hgap Hgap' Hst Hp Hnp] [Ro Rh Rc (cs & aa & ax & al & Ecs & Hcs) Rs Rp Rb] Hnc.
  assert (Hw : 0 < w) by (eapply header_width_pos; exact Rh).
  unfold read_vtu. rewrite Hnp. unfold parse_raw.
  set (rest := gap ++ "_"%char :: map ascii_of_N (appended ds) ++ lf :: gap' ++ foot).
  assert (Es : s' = before ++ ch "<AppendedData" ++ body ++ ">"%char :: rest).
  { unfold s', raw_text, head. rewrite <- !app_assoc. reflexivity. }
  assert (Ef : find_appended s' = Some (head, rest)).
  { rewrite Es. apply find_appended_first; auto. intros j Hj. rewrite <- Es. now apply Hfa. }
  rewrite Ef. cbn [of_option bind]. rewrite (find_sub_first _ _ _ Hst). cbn [of_option bind].
  set (mid := gap ++ "_"%char :: map ascii_of_N (appended ds) ++ lf :: gap').
  assert (Es2 : s' = (head ++ mid) ++ foot).
  { unfold s', raw_text, mid. rewrite <- !app_assoc. cbn [app]. rewrite <- !app_assoc. reflexivity. }
  assert (El : length s' - length foot = length head + length mid) by (rewrite Es2, !app_length; lia).
  rewrite El. rewrite Es2. replace (skipn (length head + length mid) ((head ++ mid) ++ foot)) with foot by (symmetry; apply skipn_exact; symmetry; apply app_length).
  rewrite <- app_assoc, (skipn_exact head) by reflexivity. replace (length head + length mid - length head) with (length mid) by lia.
  rewrite (firstn_exact mid) by reflexivity. unfold mid. rewrite after_char_first by exact Hgap. cbn [of_option bind].
  rewrite before_last_last by exact Hgap'. rewrite bytes_chars by (eapply appended_bytes; exact Rb).
  rewrite Hp. cbn [of_option bind]. rewrite Rh. cbn [of_option bind]. rewrite Ro.
  assert (Eb : negb (String.eqb (if big then "BigEndian" else "LittleEndian") "LittleEndian") = big) by (destruct big; reflexivity).
  rewrite Eb. destruct root as [t a x rcs]. cbn [xchildren xattrs] in *. subst rcs.
  rewrite (set_appended_last [] cs "AppendedData" aa ax al Hcs eq_refl). cbn [of_option bind].
  pose proof (unraw_ok big w ds t a x (cs ++ [XNode "AppendedData" aa ax al]) Hw Rc Rb Hnc Rp) as Hun. unfold unraw in Hun. cbn [xattrs] in Hun. rewrite Hun. clear Hun.
  set (a0 := filter (fun kv => negb (String.eqb (fst kv) "compressor")) a).
  cbn [bind fst snd length app]. set (f := ren (combine (olds 0 ds) (news w 0 ds))). cbn [reoffset]. rewrite map_app. cbn [map reoffset].
  assert (E1 : forall z, reoffset_one f (XNode "AppendedData" aa ax z) = XNode "AppendedData" aa ax z).
  { intros z. unfold reoffset_one. destruct (dget "offset" aa); reflexivity. }
  rewrite E1. set (cs1 := map (fun c => reoffset_one f (reoffset f c)) cs).
  assert (Hcs1 : Forall (fun c => xtag c <> "AppendedData") cs1).
  { apply Forall_forall. intros c Hc. apply in_map_iff in Hc. destruct Hc as (c' & <- & Hc). unfold f. rewrite tag_reoffset. rewrite Forall_forall in Hcs. auto. }
  rewrite (set_appended_last ("_"%char :: texts big w ds) cs1 "AppendedData" aa ax) by (auto; reflexivity). cbn [of_option bind].
  set (ht := match dget "header_type" a with Some t => t | None => "UInt32" end) in *.
  set (h1 := UHead None ht big (Some (texts big w ds))). set (h2 := UHead None ht big None).
  set (cs2 := map (fun c => inline_one big w (sources ds) (inline big w (sources ds) c)) cs).
  assert (E2 : inline_document big w ds (XNode t a x (cs ++ [XNode "AppendedData" aa ax al])) = XNode t a0 x cs2).
  { unfold inline_document. rewrite filter_app. cbn [filter xtag String.eqb Ascii.eqb Bool.eqb negb]. rewrite app_nil_r.
    assert (Ecs : filter (fun c => negb (String.eqb (xtag c) "AppendedData")) cs = cs).
    { clear -Hcs. induction Hcs as [|c cs Hc H IH]; [reflexivity|]. cbn [filter]. destruct (String.eqb_spec (xtag c) "AppendedData"); [congruence|]. cbn [negb]. now rewrite IH. }
    rewrite Ecs. reflexivity. }
  rewrite E2. unfold read_root.
  assert (Eh : forall l, read_head native (XNode t a0 x l) = read_head native (XNode t a0 x [])) by reflexivity.
  rewrite (Eh (cs1 ++ _)), (Eh cs2). cbn [xchildren].
  destruct (read_head native (XNode t a0 x [])) as [h0|] eqn:Eh0; [|reflexivity]. cbn [bind].
  assert (Eh' : h0 = h2).
  { unfold read_head in Eh0. cbn [xtag xattrs] in Eh0. destruct (negb (String.eqb t "VTKFile")); [discriminate|].
    destruct (of_option KeyError (dget "type" a0)); [|discriminate]. cbn [bind] in Eh0. destruct (negb _) in Eh0; [discriminate|].
    destruct (match dget "version" a0 with Some _ => _ | None => _ end) in Eh0; [discriminate|]. unfold a0 in Eh0. rewrite !dget_uncompressed in Eh0. cbn [String.eqb Ascii.eqb Bool.eqb] in Eh0. rewrite Ro in Eh0. fold ht in Eh0.
    destruct big; cbn in Eh0; injection Eh0 as <-; reflexivity. }
  subst h0.
  assert (Hsim : Forall2 (sim pk h1 h2) cs1 cs2).
  { rewrite forallb_app in Rs. apply andb_true_iff in Rs. destruct Rs as [Rs _]. rewrite forallb_forall in Rs.
    assert (Hin : forall c, In c cs -> sim pk h1 h2 (reoffset_one f (reoffset f c)) (inline_one big w (sources ds) (inline big w (sources ds) c))).
    { intros c Hc. apply tree_sim; auto. intros o Ho. eapply Permutation_in; [exact Rp|]. cbn [offsets]. rewrite flat_map_app. apply in_app_iff. left.
      apply in_flat_map. eauto. }
    unfold cs1, cs2. clear -Hin. induction cs as [|c cs IH]; [constructor|]. cbn [map]. constructor; [apply Hin; now left|]. apply IH. intros. apply Hin. now right. }
  pose proof (get_grid_sim h1 h2 (texts big w ds) cs1 cs2 Hsim Hcs1 (dset "encoding" "base64" aa)
    (map (fun c => reoffset_one f (reoffset f c)) al) None None) as Hg.
  specialize (Hg ltac:(rewrite dget_dset; reflexivity) (text_clean big w (map content ds)) I).
  destruct (get_grid (cs1 ++ _) None None) as [[g1 s1]|e1]; destruct (get_grid cs2 None None) as [[g2 s2]|e2]; try destruct Hg.
  - destruct H0 as [-> ->]. cbn [bind fst snd h_comp h_type h_big h2]. exact (grid_sim nk pk h1 h2 eq_refl g1 g2 H).
  - reflexivity.
Qed.
End File.
Lemma first_find_sub p s k : find_sub p s = Some k -> first_at p s k.
Proof.
  revert k. induction s as [|c s IH]; intros k; cbn [find_sub].
  - destruct (strip_prefix p []) as [r|] eqn:E; [|discriminate]. intros H. injection H as <-. apply strip_prefix_spec in E. split; [now exists r|]. lia.
  - destruct (strip_prefix p (c :: s)) as [r|] eqn:E.
    + intros H. injection H as <-. apply strip_prefix_spec in E. split; [now exists r|]. lia.
    + destruct (find_sub p s) as [k'|]; [|discriminate]. intros H. injection H as <-. destruct (IH k' eq_refl) as [H1 H2]. split; [exact H1|].
      intros [|j] Hj; [|apply H2; lia]. intros [r Hr]. cbn [skipn] in Hr. rewrite Hr, strip_prefix_app in E. discriminate.
Qed.
