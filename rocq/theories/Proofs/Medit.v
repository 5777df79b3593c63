(** Binary Medit files. *)
From Verif.Lib Require Import Base Facts Facts2 Text TextFacts Lines LinesFacts Bytes BytesFacts File.
From Verif.Model Require Import Core Medit.
From Verif.Spec Require Import Core Medit.
From Verif.Proofs Require Import Gmsh22 Blocks Vtu.
From Coq Require Import NArith ZifyBool ZifyNat ZifyN.

Lemma slen big w z : w = length (sint_bytes big w z).
Proof. symmetry. apply sint_bytes_length. Qed.
Lemma take_int_ok big w z b : sint_range w z -> take_int big w (sint_bytes big w z ++ b) = Ok (z, b).
Proof.
  intros H. unfold take_int. rewrite app_length, sint_bytes_length. destruct (Nat.ltb_spec (w + length b) w); [lia|].
  rewrite firstn_exact, skipn_exact, sint_value_bytes by (auto using slen). reflexivity.
Qed.
Lemma skip_int big w z b : skipn w (sint_bytes big w z ++ b) = b.
Proof. apply skipn_exact, slen. Qed.
Lemma take_bytes_ok w items rest : 0 < w -> Forall (fun x => length x = w) items ->
  take_bytes (length items) w (concat items ++ rest) = (items, rest).
Proof.
  intros Hw H. unfold take_bytes. rewrite app_length, (concat_uniform_length w items H).
  assert (E : Nat.min (length items) ((w * length items + length rest) / w) = length items).
  { rewrite Nat.mul_comm, Nat.div_add_l by lia. apply Nat.min_l, Nat.le_add_r. }
  rewrite E. rewrite (Nat.mul_comm (length items) w), <- (concat_uniform_length w items H).
  rewrite firstn_exact, skipn_exact by reflexivity. now rewrite chunks_concat.
Qed.
Lemma flat_map_concat' {A B} (f : A -> list B) l : flat_map f l = concat (map f l).
Proof. apply flat_map_concat_map. Qed.
Lemma sint_ints big w zs : 0 < w -> Forall (sint_range w) zs -> map (sint_value big) (chunks w (flat_map (sint_bytes big w) zs)) = zs.
Proof.
  intros Hw H. rewrite flat_map_concat', chunks_concat; [|exact Hw|apply Forall_map, Forall_forall; intros; apply sint_bytes_length].
  rewrite map_map. rewrite <- (map_id zs) at 2. apply map_ext_in. intros z Hz. apply sint_value_bytes. rewrite Forall_forall in H. auto.
Qed.
Lemma flat_map_map' {A B C} (f : A -> B) (g : B -> list C) l : flat_map g (map f l) = flat_map (fun x => g (f x)) l.
Proof. induction l; cbn; congruence. Qed.
Lemma flat_ints_length {A} (f : A -> bytes) w l : (forall x, length (f x) = w) -> length (flat_map f l) = length l * w.
Proof. intros H. induction l; cbn; [reflexivity|]. rewrite app_length, H. lia. Qed.

Lemma widths_cases v i f p : In (v, (i, f, p)) medit_widths -> medit_sizes v = Ok (i, f, p) /\ 0 < i /\ 0 < f /\ sint_range 4 v.
Proof.
  intros H. repeat (destruct H as [H|H]; [injection H as <- <- <- <-; repeat split; try reflexivity; try lia; cbn; lia|]). destruct H.
Qed.
Lemma type_cases t : medit_type t = true ->
  In t ["line"; "triangle"; "quad"; "tetra"; "wedge"; "hexahedron"; "pyramid"].
Proof.
  unfold medit_type, medit_types. cbn [existsb fst]. rewrite !orb_true_iff, !String.eqb_eq. cbn [In]. intuition discriminate.
Qed.
Lemma range4 z : (-1000 <= z <= 1000)%Z -> sint_range 4 z.
Proof. unfold sint_range. change (capacity 4) with 4294967296%N. lia. Qed.

Lemma cells_back (cs : list (cell * Z)) n : Forall (fun cl => length (fst cl) = n) cs ->
  map (fun r => map (fun i => i - 1)%Z (firstn n r)) (map (fun cl : cell * Z => map (fun v => v + 1)%Z (fst cl) ++ [snd cl]) cs) = map fst cs /\
  map (fun r => last r 0%Z) (map (fun cl : cell * Z => map (fun v => v + 1)%Z (fst cl) ++ [snd cl]) cs) = map snd cs.
Proof.
  intros H. split; rewrite map_map; apply map_ext_in; intros cl Hc; rewrite Forall_forall in H; specialize (H _ Hc).
  - rewrite <- H. rewrite firstn_exact by (symmetry; apply map_length). rewrite map_map. rewrite <- (map_id (fst cl)) at 2. apply map_ext. intros; lia.
  - apply last_last.
Qed.

Section Read.
Context {F : Type}.
Variable fcodec : bool -> nat -> codec F.
Variable big : bool.
Variable iw fw pw : nat.
Hypothesis Hi : 0 < iw.
Hypothesis Hf : 0 < fw.
Hypothesis Hcw : codec_width (fcodec big fw) fw.
Notation good := (exact (fcodec big fw)).
Notation num := (enc (fcodec big fw)).
Notation sec := (sec_bytes num big iw pw).

Lemma cell_item n (cl : cell * Z) : length (fst cl) = n -> Forall (fun v => sint_range iw (v + 1)%Z) (fst cl) -> sint_range iw (snd cl) ->
  let it := flat_map (fun v => sint_bytes big iw (v + 1)) (fst cl) ++ sint_bytes big iw (snd cl) in
  map (sint_value big) (chunks iw it) = map (fun v => v + 1)%Z (fst cl) ++ [snd cl] /\ length it = (n + 1) * iw.
Proof.
  intros Hl Hr Hs. cbn zeta. split.
  - rewrite <- (flat_map_map' (fun v => v + 1)%Z (sint_bytes big iw)).
    replace (sint_bytes big iw (snd cl)) with (flat_map (sint_bytes big iw) [snd cl]) by (cbn; apply app_nil_r).
    rewrite <- flat_map_app. apply sint_ints; [exact Hi|]. apply Forall_app. split; [now apply Forall_map|]. constructor; [exact Hs|constructor].
  - rewrite app_length, sint_bytes_length, (flat_ints_length _ iw) by (intros; apply sint_bytes_length). lia.
Qed.
Lemma vertex_item dim (pl : list F * Z) : length (fst pl) = dim -> Forall good (fst pl) -> sint_range iw (snd pl) ->
  let it := flat_map num (fst pl) ++ sint_bytes big iw (snd pl) in
  vertex_of F fcodec big dim iw fw it = pl /\ length it = dim * fw + iw.
Proof.
  intros Hl Hg Hs. cbn zeta. assert (El : length (flat_map num (fst pl)) = dim * fw) by (rewrite (flat_ints_length _ fw) by exact Hcw; lia).
  split; [|rewrite app_length, sint_bytes_length; lia]. unfold vertex_of. rewrite <- El, firstn_exact, skipn_exact, sint_value_bytes by auto.
  destruct pl as [xs z]; cbn [fst snd] in *. f_equal. rewrite flat_map_concat', chunks_concat; [|exact Hf|apply Forall_map, Forall_forall; intros; apply Hcw].
  rewrite map_map. rewrite <- (map_id xs) at 2. apply map_ext_in. intros x Hx. rewrite Forall_forall in Hg. apply Hg, Hx.
Qed.

(** What a section does to the state. *)
Definition after (st : bin_state F) (s : medit_sec F) : bin_state F :=
  match s with
  | SVertices _ ps => BinState _ (Some (map fst ps, map snd ps)) (bs_cells _ st) (bs_refs _ st)
  | SCells _ t cs => BinState _ (bs_points _ st) (bs_cells _ st ++ [Block t (map fst cs)]) (bs_refs _ st ++ [map snd cs])
  | SMarks _ _ _ => st
  end.

Lemma count_item {B} (l : list B) : (Z.of_nat (length l) <? 0)%Z = false.
Proof. destruct (Z.ltb_spec (Z.of_nat (length l)) 0); [lia|reflexivity]. Qed.

Lemma step_head s b : firstn 4 (sec s ++ b) = sint_bytes big 4 (sec_key s) /\ Nat.ltb (length (sec s ++ b)) 4 = false.
Proof.
  unfold sec_bytes. rewrite <- !app_assoc. split; [apply firstn_exact, slen|].
  rewrite app_length, sint_bytes_length. destruct (Nat.ltb_spec (4 + length (sint_bytes big pw (sec_pos s) ++ sint_bytes big iw (Z.of_nat (sec_len s)) ++
      match s with
      | SVertices _ ps => flat_map (fun pl => flat_map num (fst pl) ++ sint_bytes big iw (snd pl)) ps
      | SCells _ _ cs => flat_map (fun cl => flat_map (fun v => sint_bytes big iw (v + 1)) (fst cl) ++ sint_bytes big iw (snd cl)) cs
      | SMarks _ _ ids => flat_map (sint_bytes big iw) ids
      end ++ b)) 4); [lia|reflexivity].
Qed.

Lemma loop_cells fuel dim st pos t cs b name ncols :
  zget (medit_key t) medit_codes = Some (name, true, String.concat "" (repeat "i" (S ncols))) ->
  item_size (String.concat "" (repeat "i" (S ncols))) dim iw fw 1 = Ok ((ncols + 1) * iw) ->
  String.eqb name "GmfEnd" = false -> String.eqb name "GmfReserved" = false -> String.eqb name "GmfVertices" = false ->
  dget name meshio_from_medit = Some (t, ncols) -> medit_nodes t = ncols -> sint_range 4 (medit_key t) ->
  sec_fits good (sint_range iw) dim (SCells pos t cs) ->
  bin_loop F fcodec (S fuel) big dim iw fw pw st (sec (SCells pos t cs) ++ b) = bin_loop F fcodec fuel big dim iw fw pw (after st (SCells pos t cs)) b.
Proof.
  intros Hz Hs He Hres Hv Hd Hn Hk [Hc [_ Hrows]]. cbn [bin_loop]. destruct (step_head (SCells pos t cs) b) as [E1 E2]. rewrite E1, E2.
  rewrite sint_value_bytes by exact Hk. cbn [sec_key]. rewrite Hz. cbn [of_option bind]. rewrite He, Hres, Hv. unfold sec_bytes. rewrite <- !app_assoc, !skip_int.
  cbn [sec_len] in *. rewrite take_int_ok by exact Hc. cbn [bind fst snd]. rewrite Hs. cbn [bind]. rewrite count_item, Nat2Z.id. rewrite flat_map_concat'.
  assert (Hw : Forall (fun x => length x = (ncols + 1) * iw) (map (fun cl => flat_map (fun v => sint_bytes big iw (v + 1)) (fst cl) ++ sint_bytes big iw (snd cl)) cs)).
  { apply Forall_map. eapply Forall_impl; [|exact Hrows]. cbn beta. intros cl (H1 & H2 & H3). rewrite <- Hn. apply cell_item; auto. }
  pose proof (take_bytes_ok ((ncols + 1) * iw) _ b ltac:(nia) Hw) as Et. rewrite map_length in Et. rewrite Et. cbn [fst snd]. rewrite Hd.
  rewrite map_map.
  assert (Em : map (fun cl => map (sint_value big) (chunks iw (flat_map (fun v => sint_bytes big iw (v + 1)) (fst cl) ++ sint_bytes big iw (snd cl)))) cs =
               map (fun cl : cell * Z => map (fun v => v + 1)%Z (fst cl) ++ [snd cl]) cs).
  { apply map_ext_in. intros cl Hcl. rewrite Forall_forall in Hrows. destruct (Hrows _ Hcl) as (H1 & H2 & H3). eapply cell_item; eauto. }
  rewrite Em, map_length, Nat.eqb_refl. cbn [negb].
  assert (Hl : Forall (fun cl : cell * Z => length (fst cl) = ncols) cs) by (eapply Forall_impl; [|exact Hrows]; cbn; intros cl (H1 & _); congruence).
  destruct (cells_back cs ncols Hl) as [-> ->]. reflexivity.
Qed.

Lemma vertex_size dim : item_size "dri" dim iw fw 1 = Ok (dim * fw + iw).
Proof. cbn. f_equal. lia. Qed.
Lemma loop_sec fuel dim st s b : (dim = 2 \/ dim = 3) -> sec_fits good (sint_range iw) dim s ->
  bin_loop F fcodec (S fuel) big dim iw fw pw st (sec s ++ b) = bin_loop F fcodec fuel big dim iw fw pw (after st s) b.
Proof.
  intros Hdim Hs. destruct s as [pos ps|pos t cs|pos k ids].
  - destruct Hs as [Hc Hrows]. cbn [bin_loop]. destruct (step_head (SVertices pos ps) b) as [E1 E2]. rewrite E1, E2.
    rewrite sint_value_bytes by (apply range4; cbn; lia). cbn [sec_key].
    replace (zget 4 medit_codes) with (Some ("GmfVertices", true, "dri")) by reflexivity. cbn [of_option bind].
    change (String.eqb "GmfVertices" "GmfEnd") with false. change (String.eqb "GmfVertices" "GmfReserved") with false. change (String.eqb "GmfVertices" "GmfVertices") with true.
    cbv iota. unfold sec_bytes. rewrite <- !app_assoc, !skip_int. cbn [sec_len] in *. rewrite take_int_ok by exact Hc. cbn [bind fst snd].
    rewrite vertex_size. cbn [bind]. rewrite count_item, Nat2Z.id, flat_map_concat'.
    assert (Hw : Forall (fun x => length x = dim * fw + iw) (map (fun pl => flat_map num (fst pl) ++ sint_bytes big iw (snd pl)) ps)).
    { apply Forall_map. eapply Forall_impl; [|exact Hrows]. cbn beta. intros pl (H1 & H2 & H3). apply vertex_item; auto. }
    pose proof (take_bytes_ok (dim * fw + iw) _ b ltac:(nia) Hw) as Et. rewrite map_length in Et. rewrite Et. cbn [fst snd].
    assert (Em : map (vertex_of F fcodec big dim iw fw) (map (fun pl => flat_map num (fst pl) ++ sint_bytes big iw (snd pl)) ps) = ps).
    { rewrite map_map. rewrite <- (map_id ps) at 2. apply map_ext_in. intros pl Hp. rewrite Forall_forall in Hrows. destruct (Hrows _ Hp) as (H1 & H2 & H3). now apply vertex_item. }
    rewrite Em. reflexivity.
  - pose proof Hs as [_ [Ht _]]. apply type_cases in Ht. cbn [In] in Ht.
    repeat match goal with H : _ \/ _ |- _ => destruct H as [Ht|H] end; try contradiction; subst t;
      (eapply loop_cells; [match goal with |- zget (medit_key ?t) _ = _ => instantiate (1 := medit_nodes t) end; vm_compute; reflexivity|cbn; f_equal; lia|reflexivity|reflexivity|reflexivity|reflexivity|reflexivity|apply range4; cbn; lia|exact Hs]).
  - destruct Hs as [Hc [Hk Hr]]. cbn [bin_loop]. destruct (step_head (SMarks pos k ids) b) as [E1 E2]. rewrite E1, E2. cbn [sec_key].
    rewrite sint_value_bytes by (apply range4; cbn in Hk; lia).
    assert (E : exists name, zget k medit_codes = Some (name, true, "i") /\ String.eqb name "GmfEnd" = false /\ String.eqb name "GmfReserved" = false /\
      String.eqb name "GmfVertices" = false /\ dget name meshio_from_medit = None).
    { cbn [In] in Hk. repeat match goal with H : _ \/ _ |- _ => destruct H as [Hk|H] end; try contradiction; subst k; eexists; (split; [reflexivity|]); repeat split; reflexivity. }
    destruct E as (name & -> & He & Hres & Hv & Hd). cbn [of_option bind]. rewrite He, Hres, Hv, Hd.
    unfold sec_bytes. rewrite <- !app_assoc, !skip_int. cbn [sec_len] in *. rewrite take_int_ok by exact Hc. cbn [bind fst snd].
    change (item_size "i" dim iw fw 1) with (@Ok nat (1 * iw + 0)). cbn [bind]. rewrite count_item, Nat2Z.id, flat_map_concat'.
    pose proof (take_bytes_ok iw (map (sint_bytes big iw) ids) b Hi ltac:(apply Forall_map, Forall_forall; intros; apply sint_bytes_length)) as Et.
    rewrite map_length in Et. replace (1 * iw + 0) with iw by lia. rewrite Et. reflexivity.
Qed.

Lemma loop_secs secs : forall fuel dim st b, length secs <= fuel -> (dim = 2 \/ dim = 3) -> Forall (sec_fits good (sint_range iw) dim) secs ->
  bin_loop F fcodec fuel big dim iw fw pw st (flat_map sec secs ++ b) = bin_loop F fcodec (fuel - length secs) big dim iw fw pw (fold_left after secs st) b.
Proof.
  induction secs as [|s secs IH]; intros fuel dim st b Hl Hd H.
  - cbn. now rewrite Nat.sub_0_r.
  - inversion H as [|? ? Hs H']; subst. cbn [length] in Hl. destruct fuel as [|fuel]; [lia|]. cbn [flat_map fold_left]. rewrite <- app_assoc.
    rewrite loop_sec, IH by (auto; lia). f_equal; cbn; lia.
Qed.
Lemma fold_after secs st : bs_cells _ (fold_left after secs st) = bs_cells _ st ++ sec_blocks secs /\
  bs_refs _ (fold_left after secs st) = bs_refs _ st ++ sec_refs secs /\
  (forallb no_vertices secs = true -> bs_points _ (fold_left after secs st) = bs_points _ st).
Proof.
  revert st; induction secs as [|s secs IH]; intros st; cbn [fold_left]; [cbn; now rewrite !app_nil_r|].
  destruct (IH (after st s)) as (-> & -> & H3). destruct s; cbn [after bs_cells bs_refs bs_points sec_blocks sec_refs flat_map app forallb no_vertices andb] in *;
    rewrite <- ?app_assoc; repeat split; auto; discriminate.
Qed.

Notation tail_ok := (medit_tail big).
Lemma loop_tail fuel dim st tail : tail_ok tail -> 0 < fuel -> bin_loop F fcodec fuel big dim iw fw pw st tail = Ok st.
Proof.
  intros Ht Hl. destruct fuel as [|fuel]; [lia|]. destruct Ht as [->|[junk ->]]; [reflexivity|]. cbn [bin_loop].
  rewrite app_length, sint_bytes_length. destruct (Nat.ltb_spec (4 + length junk) 4); [lia|].
  rewrite firstn_exact, sint_value_bytes by (auto using slen; apply range4; lia).
  replace (zget 54 medit_codes) with (Some ("GmfEnd", false, "")) by reflexivity. reflexivity.
Qed.

Theorem read_binary version pos dim pre vpos ps post tail :
  In (version, (iw, fw, pw)) medit_widths -> dim = 2 \/ dim = 3 ->
  Forall (sec_fits good (sint_range iw) dim) (pre ++ SVertices vpos ps :: post) -> forallb no_vertices post = true -> tail_ok tail ->
  read_medit_binary F fcodec (medit_bytes num big iw pw version pos dim (pre ++ SVertices vpos ps :: post) tail) =
  Ok (MeditOut (map fst ps) (sec_blocks (pre ++ post)) (Some (map snd ps)) (sec_refs (pre ++ post))).
Proof.
  intros Hv Hdim Hs Hno Ht. destruct (widths_cases _ _ _ _ Hv) as (Ev & _ & _ & Hvr). unfold read_medit_binary.
  set (secs := pre ++ SVertices vpos ps :: post) in *.
  assert (Hfuel : length secs < S (length (medit_bytes num big iw pw version pos dim secs tail))).
  { unfold medit_bytes. rewrite !app_length. enough (length secs <= length (flat_map sec secs)) by lia.
    clear. induction secs as [|s secs IH]; [cbn; lia|]. cbn [flat_map length]. rewrite app_length.
    assert (1 <= length (sec s)); [|lia]. unfold sec_bytes. rewrite !app_length, sint_bytes_length. lia. }
  assert (Ec : take_int false 4 (medit_bytes num big iw pw version pos dim secs tail) = Ok ((if big then 16777216 else 1)%Z,
     sint_bytes big 4 version ++ sint_bytes big 4 3 ++ sint_bytes big pw pos ++ sint_bytes big 4 (Z.of_nat dim) ++ flat_map sec secs ++ tail)).
  { unfold medit_bytes. destruct big; [|apply take_int_ok, range4; lia].
    replace (sint_bytes true 4 1) with (sint_bytes false 4 16777216) by reflexivity. apply take_int_ok. unfold sint_range. cbn. lia. }
  rewrite Ec. cbn [bind fst snd]. set (fuel := S (length (medit_bytes num big iw pw version pos dim secs tail))) in *. clearbody fuel. clear Ec.
  assert (Eb : (((if big then 16777216 else 1) =? 16777216) = big)%Z) by (destruct big; reflexivity). rewrite Eb.
  replace (negb (((if big then 16777216 else 1) =? 1) || big)%Z) with false by (destruct big; reflexivity).
  rewrite take_int_ok by exact Hvr. cbn [bind fst snd]. rewrite Ev. cbn [bind].
  rewrite take_int_ok by (apply range4; lia). cbn [bind fst snd]. change (negb (3 =? 3)%Z) with false. cbv iota. rewrite skip_int.
  rewrite take_int_ok by (apply range4; lia). cbn [bind fst snd].
  replace (negb ((Z.of_nat dim =? 2) || (Z.of_nat dim =? 3))%Z) with false by (destruct Hdim as [-> | ->]; reflexivity).
  rewrite Nat2Z.id. rewrite loop_secs by (auto; lia). rewrite loop_tail by (auto; lia). cbn [bind].
  unfold secs. rewrite fold_left_app. cbn [fold_left].
  destruct (fold_after post (after (fold_left after pre (BinState F None [] [])) (SVertices vpos ps))) as (-> & -> & Hp). rewrite (Hp Hno). cbn [after bs_points bs_cells bs_refs].
  destruct (fold_after pre (BinState F None [] [])) as (-> & -> & _). cbn [bs_cells bs_refs app].
  unfold sec_blocks, sec_refs. now rewrite !flat_map_app.
Qed.
End Read.

(** ** Writing *)
Lemma pick_first_spec {A B} (int0 : A -> result bool) (ints : A -> option B) (d : dict A) :
  Forall (fun kv => fst kv <> "" /\ int0 (snd kv) = Ok (match ints (snd kv) with Some _ => true | None => false end)) d ->
  exists o, pick_first_int int0 d = Ok o /\ 
    match o with
    | None => first_integer ints d = None
    | Some k => exists d1 v l d2, d = d1 ++ (k, v) :: d2 /\ ints v = Some l /\ first_integer ints d = Some l
    end.
Proof.
  intros H. unfold pick_first_int.
  assert (E : mapM (fun kv => do b <- int0 (snd kv); Ok (fst kv, b)) d = Ok (map (fun kv => (fst kv, match ints (snd kv) with Some _ => true | None => false end)) d)).
  { apply mapM_ok_in. intros kv Hk. rewrite Forall_forall in H. destruct (H kv Hk) as [_ ->]. reflexivity. }
  rewrite E. cbn [bind]. eexists. split; [reflexivity|]. clear E.
  induction H as [|[k v] d [Hk Hi] H IH]; [reflexivity|]. cbn [map find fst snd first_integer fold_right]. cbn [fst snd] in *.
  destruct (ints v) as [l|] eqn:Ev.
  - cbn [option_map fst]. destruct k as [|a k]; [congruence|]. exists [], v, l, d. auto.
  - destruct (find snd (map (fun kv => (fst kv, match ints (snd kv) with Some _ => true | None => false end)) d)) as [[k' b']|] eqn:Ef.
    + destruct k' as [|a k'].
      { exfalso. apply find_some in Ef. destruct Ef as [Hin _]. apply in_map_iff in Hin. destruct Hin as ([k2 v2] & E2 & Hin).
        rewrite Forall_forall in H. destruct (H _ Hin) as [Hne _]. cbn in *. congruence. }
      cbn [option_map fst] in *. destruct IH as (d1 & v' & l & d2 & -> & H1 & H2). exists ((k, v) :: d1), v', l, d2. auto.
    + exact IH.
Qed.
Lemma dget_app_here {V} k (v : V) d1 d2 : NoDup (dkeys (d1 ++ (k, v) :: d2)) -> dget k (d1 ++ (k, v) :: d2) = Some v.
Proof.
  induction d1 as [|[k' v'] d1 IH]; cbn [app dget]; [now rewrite String.eqb_refl|]. intros H. unfold dkeys in H. cbn [map fst] in H. inversion H as [|? ? Hk H']; subst.
  destruct (String.eqb_spec k k') as [->|]; [|apply IH; exact H']. destruct Hk. rewrite map_app. apply in_or_app. right. cbn. auto.
Qed.


Section Labels.
Context {F : Type}.
Variable m : medit_in F.
Hypothesis Hm : medit_mesh m.

Lemma point_labels_ok : point_labels m = Ok (point_refs m) /\ length (point_refs m) = length (mi_points m).
Proof.
  destruct (mm_point_names _ Hm) as [Hn He]. pose proof (mm_point_data _ Hm) as Hd. unfold point_labels, point_refs.
  destruct (pick_first_spec point_int0 ints_of (mi_point_data m)) as (o & E & H).
  { apply Forall_forall. intros kv Hk. rewrite Forall_forall in Hd. destruct (Hd _ Hk) as [H1 H2]. split.
    - intros Ee. apply He. rewrite <- Ee. now apply in_map.
    - unfold point_int0. rewrite H1. destruct (mi_points m); [congruence|]. cbn. destruct (snd kv); reflexivity. }
  rewrite E. cbn [bind]. destruct o as [k|].
  - destruct H as (d1 & v & l & d2 & E1 & E2 & E3). rewrite E3. rewrite E1 at 1. rewrite dget_app_here by (unfold dkeys; rewrite <- E1; exact Hn).
    destruct v as [l'|]; [|discriminate]. injection E2 as <-. split; [reflexivity|]. rewrite Forall_forall in Hd.
    destruct (Hd (k, IntArr l')) as [H1 _]; [rewrite E1; apply in_or_app; right; cbn; auto|exact H1].
  - rewrite H. split; [reflexivity|apply repeat_length].
Qed.

Lemma mapO_ints (l : list (darr F)) : Forall (fun a => is_int a = true) l ->
  exists ls, mapO ints_of l = Some ls /\ map (@length Z) ls = map dlen l /\ forall i r, nth_error ls i = Some r -> nth_error l i = Some (IntArr r).
Proof.
  induction 1 as [|a l Ha H (ls & E & El & Hn)]; [exists []; repeat split; intros [|i] r; discriminate|].
  destruct a as [z|]; [|discriminate]. exists (z :: ls). cbn [mapO ints_of]. rewrite E. repeat split; [cbn; now rewrite El|].
  intros [|i] r; cbn; [intros [= <-]; reflexivity|apply Hn].
Qed.
Lemma mapO_real (a : darr F) l : is_int a = false -> mapO ints_of (a :: l) = None.
Proof. destruct a; [discriminate|reflexivity]. Qed.

Lemma cell_labels_ok : exists key, pick_first_int cell_int0 (mi_cell_data m) = Ok key /\ map (@length Z) (cell_refs m) = map blen (mi_cells m) /\
  forall i b r, nth_error (mi_cells m) i = Some b -> nth_error (cell_refs m) i = Some r -> cell_labels m key i (blen b) = Ok r.
Proof.
  destruct (mm_cell_names _ Hm) as [Hn He]. pose proof (mm_cell_data _ Hm) as Hd. unfold cell_refs.
  destruct (pick_first_spec cell_int0 (mapO ints_of) (mi_cell_data m)) as (o & E & H).
  { apply Forall_forall. intros kv Hk. rewrite Forall_forall in Hd. destruct (Hd _ Hk) as (H1 & H2 & H3). split.
    - intros Ee. apply He. rewrite <- Ee. now apply in_map.
    - destruct (snd kv) as [|a l]; [destruct (mi_cells m); [congruence|discriminate]|]. cbn [cell_int0]. destruct H3 as [H3|H3].
      + destruct (mapO_ints _ H3) as (ls & -> & _). inversion H3; subst. congruence.
      + inversion H3; subst. rewrite mapO_real by auto. congruence. }
  exists o. split; [exact E|]. destruct o as [k|].
  - destruct H as (d1 & v & l & d2 & E1 & E2 & E3). rewrite E3.
    rewrite Forall_forall in Hd. destruct (Hd (k, v)) as (H1 & H2 & H3); [rewrite E1; apply in_or_app; right; cbn; auto|]. cbn [snd] in *.
    destruct H3 as [H3|H3]; [|destruct v as [|a v]; [destruct (mi_cells m); [congruence|discriminate]|inversion H3; subst; rewrite mapO_real in E2 by auto; discriminate]].
    destruct (mapO_ints _ H3) as (ls & El & Hl & Hnth). rewrite El in E2. injection E2 as ->. split; [congruence|].
    intros i b r Hb Hr. unfold cell_labels. rewrite E1 at 1. rewrite dget_app_here by (unfold dkeys; rewrite <- E1; exact Hn). cbn [of_option bind].
    now rewrite (Hnth _ _ Hr).
  - rewrite H. split; [rewrite map_map; apply map_ext; intros; apply repeat_length|]. intros i b r Hb Hr. cbn [cell_labels].
    rewrite nth_error_map, Hb in Hr. cbn in Hr. congruence.
Qed.
End Labels.

Section Write.
Context {F : Type}.
Variable fcodec : bool -> nat -> codec F.
Hypothesis Hcw : codec_width (fcodec false 8) 8.
Variable w : nat.
Notation num := (enc (fcodec false 8)).
Notation sec := (sec_bytes num false w 8).
Definition end_bytes : bytes := sint_bytes false 4 54 ++ sint_bytes false 8 0.

(** Sections that start at offset [o]. *)
Fixpoint linked (o : nat) (l : list (block * list Z)) : list (medit_sec F) :=
  match l with
  | [] => []
  | (b, ls) :: l' => let o' := o + blen b * (medit_nodes (btype b) + 1) * w + (4 + 8 + w) in
                     SCells (Z.of_nat o') (btype b) (combine (bdata b) ls) :: linked o' l'
  end.
Lemma sec_length s : length (sec s) = 12 + w + length (match s with
  | SVertices _ ps => flat_map (fun pl => flat_map num (fst pl) ++ sint_bytes false w (snd pl)) ps
  | SCells _ _ cs => flat_map (fun cl => flat_map (fun v => sint_bytes false w (v + 1)) (fst cl) ++ sint_bytes false w (snd cl)) cs
  | SMarks _ _ ids => flat_map (sint_bytes false w) ids
  end).
Proof. unfold sec_bytes. rewrite !app_length, !sint_bytes_length. lia. Qed.
Lemma flat_length_in {A} (f : A -> bytes) k l : (forall x, In x l -> length (f x) = k) -> length (flat_map f l) = length l * k.
Proof. induction l as [|a l IH]; intros H; [reflexivity|]. cbn [flat_map length]. rewrite app_length, (H a), IH by (intros; try apply H; cbn; auto). lia. Qed.
Lemma cells_length b ls pos : Forall (fun c => length c = medit_nodes (btype b)) (bdata b) -> length ls = blen b ->
  length (sec (SCells pos (btype b) (combine (bdata b) ls))) = blen b * (medit_nodes (btype b) + 1) * w + (4 + 8 + w).
Proof.
  intros Hb Hl. rewrite sec_length, (flat_length_in _ ((medit_nodes (btype b) + 1) * w)).
  - rewrite combine_length, Hl. unfold blen. lia.
  - intros [c z] Hin. apply in_combine_l in Hin. rewrite Forall_forall in Hb. cbn [fst snd]. rewrite app_length, sint_bytes_length, (flat_ints_length _ w) by (intros; apply sint_bytes_length).
    rewrite (Hb _ Hin). lia.
Qed.
Definition at_offsets (o : nat) (secs : list (medit_sec F)) : Prop :=
  forall i s, nth_error secs i = Some s -> sec_pos s = Z.of_nat (o + length (flat_map sec (firstn (S i) secs))).
Lemma linked_offsets o l : Forall (fun bl => Forall (fun c => length c = medit_nodes (btype (fst bl))) (bdata (fst bl)) /\ length (snd bl) = blen (fst bl)) l ->
  at_offsets o (linked o l).
Proof.
  revert o; induction l as [|[b ls] l IH]; intros o H i s Hi; [now destruct i|]. inversion H as [|? ? [H1 H2] H']; subst. cbn [fst snd] in *.
  cbn [linked] in Hi. destruct i as [|i]; cbn [nth_error] in Hi.
  - injection Hi as <-. cbn [sec_pos firstn linked flat_map]. rewrite app_nil_r, cells_length by auto. lia.
  - specialize (IH _ H' _ _ Hi). rewrite IH. cbn [linked firstn flat_map]. rewrite app_length, cells_length by auto. cbn [firstn flat_map]. lia.
Qed.

Lemma bin_blocks_ok m key bs : forall refs i pos,
  map (@length Z) refs = map blen bs ->
  (forall j b r, nth_error bs j = Some b -> nth_error refs j = Some r -> cell_labels m key (i + j) (blen b) = Ok r) ->
  Forall (fun b => medit_type (btype b) = true -> Forall (fun c => length c = medit_nodes (btype b)) (bdata b)) bs ->
  bin_blocks F m key w i (Z.of_nat pos) bs = Ok (flat_map sec (linked pos (filter (fun bl => medit_type (btype (fst bl))) (combine bs refs))) ++ end_bytes).
Proof.
  induction bs as [|b bs IH]; intros refs i pos Hl Hc Hb; [reflexivity|]. destruct refs as [|r refs]; [discriminate|]. cbn [map] in Hl. injection Hl as Hl0 Hl.
  inversion Hb as [|? ? Hb0 Hb']; subst. cbn [bin_blocks combine filter fst].
  assert (Hc' : forall j b r, nth_error bs j = Some b -> nth_error refs j = Some r -> cell_labels m key (S i + j) (blen b) = Ok r).
  { intros j b' r' H1 H2. specialize (Hc (S j) b' r' H1 H2). now rewrite Nat.add_succ_r in Hc. }
  destruct (medit_type (btype b)) eqn:Et.
  - assert (Ek : dget (btype b) medit_keys = Some (medit_key (btype b))).
    { apply type_cases in Et. cbn [In] in Et. repeat match goal with H : _ \/ _ |- _ => destruct H as [<-|H] end; try contradiction; reflexivity. }
    rewrite Ek. specialize (Hc 0 b r eq_refl eq_refl). rewrite Nat.add_0_r in Hc. rewrite Hc. cbn [bind].
    assert (Ew : blen b * (length (hd [] (bdata b)) + 1) * w = blen b * (medit_nodes (btype b) + 1) * w).
    { specialize (Hb0 eq_refl). unfold blen. destruct (bdata b) as [|c cs]; [reflexivity|]. inversion Hb0; subst. cbn [hd]. congruence. }
    rewrite Ew. rewrite <- !Nat2Z.inj_add. rewrite (IH refs) by auto. cbn [bind linked flat_map]. unfold sec_bytes at 2.
    cbn [sec_key sec_pos sec_len]. rewrite combine_length, Hl0, Nat.min_id by auto. rewrite <- !app_assoc. unfold blen. rewrite Nat.min_id || idtac. reflexivity.
  - assert (Ek : dget (btype b) medit_keys = None).
    { destruct (dget (btype b) medit_keys) eqn:E; [|reflexivity]. exfalso. apply dget_In in E. unfold medit_keys in E. cbn [In] in E.
      repeat match goal with H : _ \/ _ |- _ => destruct H as [E|H] end; try contradiction; injection E as Eb _; rewrite <- Eb in Et; discriminate. }
    rewrite Ek. apply IH; auto.
Qed.

Definition vertices_end (m : medit_in F) : nat := 24 + length (mi_points m) * mi_dim m * 8 + length (mi_points m) * w + (4 + 8 + w).
Definition medit_secs (m : medit_in F) : list (medit_sec F) :=
  SVertices (Z.of_nat (vertices_end m)) (combine (mi_points m) (point_refs m)) :: linked (vertices_end m) (kept m).
Definition version_of : Z := if Nat.eqb w 8 then 4%Z else 3%Z.

Lemma kept_ok (m : medit_in F) : medit_mesh m ->
  Forall (fun bl => medit_type (btype (fst bl)) = true /\ Forall (fun c => length c = medit_nodes (btype (fst bl))) (bdata (fst bl)) /\ length (snd bl) = blen (fst bl)) (kept m).
Proof.
  intros Hm. destruct (cell_labels_ok m Hm) as (_ & _ & Hl & _). pose proof (mm_cells _ Hm) as Hc. apply Forall_forall. intros [b ls] Hin. unfold kept in Hin.
  apply filter_In in Hin. destruct Hin as [Hin Ht]. cbn [fst snd] in *. split; [exact Ht|]. split.
  - apply in_combine_l in Hin. rewrite Forall_forall in Hc. now apply (Hc b).
  - apply In_nth_error in Hin. destruct Hin as [n Hn]. clear - Hl Hn. revert Hl n Hn. generalize (cell_refs m). induction (mi_cells m) as [|b' bs IH]; intros [|r rs] Hl n Hn; try (now destruct n).
    cbn in Hl. injection Hl as H1 H2. destruct n as [|n]; cbn in Hn; [injection Hn as -> ->; exact H1|]. eapply IH; eauto.
Qed.
Lemma secs_offsets (m : medit_in F) : medit_mesh m -> at_offsets 24 (medit_secs m).
Proof.
  intros Hm. destruct (point_labels_ok m Hm) as [_ Hl].
  assert (Ev : 24 + length (sec (SVertices (Z.of_nat (vertices_end m)) (combine (mi_points m) (point_refs m)))) = vertices_end m).
  { rewrite sec_length, (flat_length_in _ (mi_dim m * 8 + w)).
    - rewrite combine_length, Hl, Nat.min_id. unfold vertices_end. lia.
    - intros [p z] Hin. apply in_combine_l in Hin. pose proof (mm_points _ Hm) as Hp. rewrite Forall_forall in Hp. cbn [fst snd].
      rewrite app_length, sint_bytes_length, (flat_ints_length _ 8) by exact Hcw. rewrite (Hp _ Hin). reflexivity. }
  intros [|i] s Hi; unfold medit_secs in Hi; cbn [nth_error] in Hi.
  - assert (Es : s = SVertices (Z.of_nat (vertices_end m)) (combine (mi_points m) (point_refs m))) by congruence. subst s. unfold medit_secs.
    rewrite firstn_cons, firstn_O. cbn [flat_map sec_pos]. rewrite app_nil_r. f_equal. symmetry. exact Ev.
  - rewrite (linked_offsets (vertices_end m) (kept m)) with (i := i) (s := s); [|eapply Forall_impl; [|exact (kept_ok m Hm)]; cbn; tauto|exact Hi].
    unfold medit_secs. rewrite firstn_cons. cbn [flat_map]. rewrite app_length. f_equal. lia.
Qed.

Lemma write_ok m : medit_mesh m -> (w = 4 \/ w = 8) ->
  write_medit_binary F fcodec (Nat.eqb w 8) m = Ok (medit_bytes num false w 8 version_of 24 (mi_dim m) (medit_secs m) end_bytes).
Proof.
  intros Hm Hw. destruct (point_labels_ok m Hm) as [E1 Hl]. destruct (cell_labels_ok m Hm) as (key & E2 & Hl2 & Hc).
  unfold write_medit_binary. replace (if Nat.eqb w 8 then 8 else 4) with w by (destruct Hw as [-> | ->]; reflexivity).
  rewrite E1, E2. cbn [bind].
  replace (24 + Z.of_nat (length (mi_points m) * mi_dim m * 8) + Z.of_nat (length (mi_points m) * w) + Z.of_nat (4 + 8 + w))%Z with (Z.of_nat (vertices_end m)) by (unfold vertices_end; lia).
  rewrite (bin_blocks_ok m key (mi_cells m) (cell_refs m)) by (auto; apply (mm_cells _ Hm)). cbn [bind].
  unfold medit_bytes, medit_secs, version_of. cbn [flat_map].
  set (rest := flat_map sec _). unfold sec_bytes. cbn [sec_key sec_pos sec_len]. rewrite combine_length, Hl, Nat.min_id.
  rewrite <- !app_assoc. reflexivity.
Qed.

(** The chain of positions. *)
Lemma slice_app_at {A} (pre x rest : list A) o n : length pre = o -> length x = n -> slice o (o + n) (pre ++ x ++ rest) = x.
Proof.
  intros H1 H2. unfold slice. rewrite skipn_exact by (now symmetry). replace (o + n - o) with n by lia. now rewrite firstn_exact by (now symmetry).
Qed.
Lemma chain_secs file secs : forall pre o, file = pre ++ flat_map sec secs ++ end_bytes -> length pre = o ->
  (Z.of_nat (length file) < 2 ^ 63)%Z -> Forall (fun s => sint_range 4 (sec_key s)) secs -> at_offsets o secs ->
  keyword_chain file o (map sec_key secs ++ [54%Z]).
Proof.
  induction secs as [|s secs IH]; intros pre o Ef Ho Hlen Hk Hoff.
  - cbn [flat_map app] in Ef. cbn [map app]. apply chain_end.
    + rewrite Ef. unfold end_bytes. rewrite slice_app_at by (auto using sint_bytes_length). apply sint_value_bytes, range4. lia.
    + rewrite Ef, app_length, Ho. unfold end_bytes. rewrite app_length, !sint_bytes_length. lia.
  - inversion Hk as [|? ? Hk0 Hk']; subst o. cbn [map app].
    pose proof (Hoff 0 s eq_refl) as Hp. cbn [firstn flat_map] in Hp. rewrite app_nil_r in Hp.
    pose proof (sec_length s) as Hs. cbn [flat_map] in Ef. rewrite <- app_assoc in Ef.
    apply chain_next with (o' := length pre + length (sec s)).
    + rewrite Ef. unfold sec_bytes at 1. rewrite <- !app_assoc. rewrite slice_app_at by (auto using sint_bytes_length). now apply sint_value_bytes.
    + lia.
    + rewrite <- Hp. rewrite Ef. unfold sec_bytes at 1. rewrite <- !app_assoc.
      replace (length pre + 12) with (length pre + 4 + 8) by lia. rewrite (app_assoc pre).
      rewrite slice_app_at by (rewrite ?app_length, ?sint_bytes_length; lia). apply sint_value_bytes. rewrite Hp.
      rewrite Ef, !app_length in Hlen. unfold sint_range. change (Z.of_N (capacity 8)) with (2 ^ 64)%Z. lia.
    + apply IH with (pre := pre ++ sec s); auto.
      * rewrite Ef. now rewrite <- !app_assoc.
      * now rewrite app_length.
      * intros i s' Hi. rewrite (Hoff (S i) s' Hi). cbn [firstn flat_map]. rewrite app_length. f_equal. lia.
Qed.
Lemma chain_file version dim secs : let file := medit_bytes num false w 8 version 24 dim secs end_bytes in
  (Z.of_nat (length file) < 2 ^ 63)%Z -> Forall (fun s => sint_range 4 (sec_key s)) secs -> at_offsets 24 secs ->
  keyword_chain file 8 (3%Z :: map sec_key secs ++ [54%Z]).
Proof.
  intros file Hlen Hk Hoff. unfold file, medit_bytes in *. apply chain_next with (o' := 24).
  - rewrite (app_assoc (sint_bytes false 4 1)). rewrite slice_app_at by (rewrite ?app_length, !sint_bytes_length; reflexivity). apply sint_value_bytes, range4. lia.
  - lia.
  - rewrite !(app_assoc (_ ++ _)) || idtac. rewrite (app_assoc (sint_bytes false 4 1)), (app_assoc (_ ++ _) (sint_bytes false 4 3)).
    rewrite (slice_app_at _ _ _ 12 8) by (rewrite ?app_length, !sint_bytes_length; reflexivity). reflexivity.
  - apply chain_secs with (pre := sint_bytes false 4 1 ++ sint_bytes false 4 version ++ sint_bytes false 4 3 ++ sint_bytes false 8 24 ++ sint_bytes false 4 (Z.of_nat dim)); auto.
Qed.

Lemma linked_map (f : block * list Z -> block) o l :
  map sec_key (linked o l) = map (fun bl => medit_key (btype (fst bl))) l.
Proof. revert o; induction l as [|[b ls] l IH]; intros o; [reflexivity|]. cbn. now rewrite IH. Qed.
Lemma linked_blocks o l : Forall (fun bl => length (snd bl) = blen (fst bl)) l ->
  sec_blocks (linked o l) = map fst l /\ sec_refs (linked o l) = map snd l /\ forallb no_vertices (linked o l) = true.
Proof.
  intros H. revert o; induction H as [|[b ls] l Hl H IH]; intros o; [repeat split|]. cbn [fst snd] in Hl. cbn [linked].
  set (o' := _ + _ + _). destruct (IH o') as (E1 & E2 & E3). cbn [sec_blocks sec_refs flat_map app map fst snd forallb no_vertices andb].
  unfold sec_blocks, sec_refs in *. rewrite E1, E2, E3. rewrite map_fst_combine, map_snd_combine by (unfold blen in Hl; congruence). destruct b; repeat split.
Qed.

Notation bin_fits := (medit_fits (exact (fcodec false 8)) (sint_range w)).
Lemma linked_fits dim o l : Forall (fun bl => medit_type (btype (fst bl)) = true /\ Forall (fun c => length c = medit_nodes (btype (fst bl))) (bdata (fst bl)) /\ length (snd bl) = blen (fst bl)) l ->
  Forall (fun bl => sint_range w (Z.of_nat (blen (fst bl))) /\ Forall (Forall (fun v => sint_range w (v + 1))) (bdata (fst bl)) /\ Forall (sint_range w) (snd bl)) l ->
  Forall (sec_fits (exact (fcodec false 8)) (sint_range w) dim) (linked o l).
Proof.
  intros H1 H2. revert o; induction l as [|[b ls] l IH]; intros o; [constructor|]. inversion H1 as [|? ? (Ht & Hw & Hl) H1']; inversion H2 as [|? ? (Hc & Hn & Hr) H2']; subst. cbn [fst snd] in *.
  cbn [linked]. constructor; [|now apply IH]. split.
  - cbn [sec_len]. rewrite combine_length, Hl. unfold blen in *. now rewrite Nat.min_id.
  - split; [exact Ht|]. apply Forall_forall. intros [c z] Hin. rewrite Forall_forall in Hw, Hn, Hr. cbn [fst snd]. pose proof (in_combine_l _ _ _ _ Hin). pose proof (in_combine_r _ _ _ _ Hin). auto.
Qed.
Lemma secs_fit m : medit_mesh m -> bin_fits m -> Forall (sec_fits (exact (fcodec false 8)) (sint_range w) (mi_dim m)) (medit_secs m).
Proof.
  intros Hm [Hd Hp [Hc1 Hc2] Hn [Hr1 Hr2]]. destruct (point_labels_ok m Hm) as [_ Hl]. constructor.
  - split; [cbn [sec_len]; rewrite combine_length, Hl, Nat.min_id; exact Hc1|]. apply Forall_forall. intros [p z] Hin. cbn [fst snd].
    pose proof (in_combine_l _ _ _ _ Hin). pose proof (in_combine_r _ _ _ _ Hin). pose proof (mm_points _ Hm) as Hpp. rewrite Forall_forall in Hp, Hpp, Hr1. auto.
  - apply linked_fits; [now apply kept_ok|]. apply Forall_forall. intros [b ls] Hin. apply filter_In in Hin. destruct Hin as [Hin _]. cbn [fst snd].
    pose proof (in_combine_l _ _ _ _ Hin). pose proof (in_combine_r _ _ _ _ Hin). rewrite Forall_forall in Hc2, Hn, Hr2. auto.
Qed.

Theorem binary_chain m file : medit_mesh m -> (w = 4 \/ w = 8) -> write_medit_binary F fcodec (Nat.eqb w 8) m = Ok file -> (Z.of_nat (length file) < 2 ^ 63)%Z ->
  keyword_chain file 8 (3%Z :: 4%Z :: map (fun bl => medit_key (btype (fst bl))) (kept m) ++ [54%Z]).
Proof.
  intros Hm Hw E Hlen. rewrite (write_ok m Hm Hw) in E. injection E as <-.
  replace (4%Z :: map (fun bl => medit_key (btype (fst bl))) (kept m) ++ [54%Z]) with (map sec_key (medit_secs m) ++ [54%Z]).
  - apply chain_file; [exact Hlen| |now apply secs_offsets]. pose proof (kept_ok m Hm) as Hk. constructor; [apply range4; cbn; lia|]. clear - Hk. revert Hk. generalize (vertices_end m).
    induction (kept m) as [|[b ls] l IH]; intros o H; [constructor|]. inversion H as [|? ? (Ht & _) H']; subst. cbn [linked]. constructor; [|now apply IH]. cbn [sec_key fst] in *.
    apply range4. apply type_cases in Ht. cbn [In] in Ht. repeat match goal with H : _ \/ _ |- _ => destruct H as [<-|H] end; try contradiction; cbn; lia.
  - unfold medit_secs. cbn [map app sec_key]. now rewrite (linked_map fst).
Qed.
Theorem binary_roundtrip m : medit_mesh m -> (w = 4 \/ w = 8) -> bin_fits m ->
  exists file, write_medit_binary F fcodec (Nat.eqb w 8) m = Ok file /\
    read_medit_binary F fcodec file = Ok (MeditOut (mi_points m) (map fst (kept m)) (Some (point_refs m)) (map snd (kept m))).
Proof.
  intros Hm Hw Hf. rewrite (write_ok m Hm Hw). eexists. split; [reflexivity|]. pose proof (secs_fit m Hm Hf) as Hs. destruct (point_labels_ok m Hm) as [_ Hl].
  assert (Hk : Forall (fun bl => length (snd bl) = blen (fst bl)) (kept m)) by (eapply Forall_impl; [|exact (kept_ok m Hm)]; cbn; tauto).
  destruct (linked_blocks (vertices_end m) (kept m) Hk) as (E1 & E2 & E3).
  pose proof (read_binary fcodec false w 8 8 ltac:(lia) ltac:(lia) Hcw version_of 24 (mi_dim m) [] (Z.of_nat (vertices_end m)) (combine (mi_points m) (point_refs m)) (linked (vertices_end m) (kept m)) end_bytes) as R.
  cbn [app] in R. fold (medit_secs m) in R. rewrite R.
  - rewrite E1, E2, map_fst_combine, map_snd_combine by congruence. reflexivity.
  - unfold version_of. destruct Hw as [-> | ->]; cbn; auto.
  - apply (mf_dim _ _ _ Hf).
  - exact Hs.
  - exact E3.
  - right. eexists. reflexivity.
Qed.
End Write.
