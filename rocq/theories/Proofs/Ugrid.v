(** Proofs about Model/Ugrid.v. *)
From Verif.Lib Require Import Base Facts Facts2 Text TextFacts Lines LinesFacts Bytes BytesFacts File.
From Verif.Model Require Import Core Ugrid.
From Verif.Spec Require Import Core Volume.
From Verif.Proofs Require Import Core Gmsh22 Off Tetgen Vtu.
From Coq Require Import NArith ZifyBool ZifyNat ZifyN.

(** ** Collecting the blocks *)
Lemma cells_of_cons t b bs : cells_of t (b :: bs) = (if String.eqb (btype b) t then bdata b else []) ++ cells_of t bs.
Proof. rewrite !cells_of_concat. cbn [filter]. unfold is_type at 1. destruct (String.eqb (btype b) t); reflexivity. Qed.

Definition blocks_of_type (t : string) (bs : list block) : list block := filter (fun b => String.eqb (btype b) t) bs.

Lemma rows_for_dset d k v t : In k (dkeys d) -> rows_for (dset k v d) t = if String.eqb k t then v else rows_for d t.
Proof.
  intros _. unfold rows_for. destruct (String.eqb_spec k t) as [<-|N].
  - now rewrite dget_dset_same.
  - now rewrite dget_dset_other by congruence.
Qed.

Lemma collect_ok bs d np :
  Forall (fun b => btype b <> "points") bs ->
  (forall t, In t (dkeys d) -> (length (rows_for d t) = 0 /\ length (blocks_of_type t bs) <= 1) \/ blocks_of_type t bs = []) ->
  exists d', collect bs d np = Ok d' /\
    forall t, In t (dkeys d) -> rows_for d' t = rows_for d t ++ cells_of t bs.
Proof.
  revert d. induction bs as [|b bs IH]; intros d Hp H.
  - exists d. split; [reflexivity|]. intros. cbn. now rewrite app_nil_r.
  - inversion Hp as [|? ? Hb Hp']; subst. cbn [collect]. destruct (String.eqb_spec (btype b) "points"); [congruence|].
    destruct (dget (btype b) d) as [rows|] eqn:E.
    + assert (Hin : In (btype b) (dkeys d)) by (eapply dget_Some_key; exact E).
      assert (Er : rows = []).
      { destruct (H _ Hin) as [[H1 _]|H1].
        - unfold rows_for in H1. rewrite E in H1. now apply length_zero_iff_nil.
        - cbn in H1. rewrite String.eqb_refl in H1. discriminate. }
      subst rows. cbn [length Nat.ltb Nat.leb].
      assert (Ek : dkeys (dset (btype b) (bdata b) d) = dkeys d) by (rewrite dkeys_dset; unfold dmem; now rewrite E).
      destruct (IH (dset (btype b) (bdata b) d) Hp') as (d' & E' & H').
      { rewrite Ek. intros t Ht. rewrite rows_for_dset by auto. destruct (H t Ht) as [[H1 H2]|H1].
        - cbn [blocks_of_type filter] in H2. destruct (String.eqb_spec (btype b) t) as [<-|N].
          + right. cbn [length] in H2. unfold blocks_of_type. destruct (filter _ bs); [reflexivity|cbn in H2; lia].
          + left. split; [exact H1|exact H2].
        - cbn [blocks_of_type filter] in H1. destruct (String.eqb_spec (btype b) t) as [<-|N]; [discriminate|]. right. exact H1. }
      exists d'. split; [exact E'|]. intros t Ht. rewrite (H' t) by (now rewrite Ek). rewrite rows_for_dset, cells_of_cons by auto.
      destruct (String.eqb_spec (btype b) t) as [<-|N]; [|reflexivity].
      unfold rows_for. now rewrite E.
    + destruct (IH d Hp') as (d' & E' & H').
      { intros t Ht. destruct (H t Ht) as [[H1 H2]|H1].
        - left. split; [exact H1|]. cbn [blocks_of_type filter] in H2. destruct (String.eqb (btype b) t); cbn in H2; [unfold blocks_of_type; lia|exact H2].
        - right. cbn [blocks_of_type filter] in H1. destruct (String.eqb (btype b) t); [discriminate|exact H1]. }
      exists d'. split; [exact E'|]. intros t Ht. rewrite H' by auto. rewrite cells_of_cons.
      destruct (String.eqb_spec (btype b) t) as [<-|N]; [|reflexivity]. apply dget_None in E. now apply E in Ht.
Qed.

(** ** Nodes of pyramids *)
Definition at_ (p : list nat) (r : list Z) : list Z := map (fun i => nth i r 0%Z) p.
Lemma pick_at p (r : list Z) : Forall (fun i => i < length r) p -> pick p r = Ok (at_ p r).
Proof.
  intros H. unfold pick, at_. apply mapM_ok_in. intros i Hi. rewrite Forall_forall in H.
  now rewrite (nth_error_nth' _ 0%Z) by auto.
Qed.
Lemma pick_out_in (r : list Z) : length r = 5 -> pick pyramid_in (at_ pyramid_out r) = Ok r.
Proof. destruct r as [|? [|? [|? [|? [|? [|]]]]]]; try discriminate. reflexivity. Qed.

Definition out_rows (t : string) (rows : list cell) : list cell :=
  if String.eqb t "pyramid" then map (at_ pyramid_out) (one_based rows) else one_based rows.

Section Law.
Context {F : Type}.
Variable good_int : Z -> Prop.
Variable good_real : F -> Prop.
Variable stream : Type.
Variable read_ints : nat -> stream -> option (list Z * stream).
Variable read_reals : nat -> stream -> option (list F * stream).
Variable render : list (usec F) -> stream.
Variable fortran : bool.
Variable mem : ugrid_mesh F -> Z.

Definition good_sec (s : usec F) : Prop :=
  match s with
  | UInts rows => Forall (fun r => r <> [] /\ (Forall good_int r \/ (fortran = true /\ length r = 1))) rows
  | UFloats rows => Forall (fun r => r <> [] /\ Forall good_real r) rows
  end.
Hypothesis law_int : forall rows rest n, Forall good_sec rest ->
  Forall (fun r => r <> [] /\ Forall good_int r) rows -> n = length (concat rows) ->
  read_ints n (render (UInts rows :: rest)) = Some (concat rows, render rest).
Hypothesis law_real : forall rows rest n, Forall good_sec rest ->
  Forall (fun r => r <> [] /\ Forall good_real r) rows -> n = length (concat rows) ->
  read_reals n (render (UFloats rows :: rest)) = Some (concat rows, render rest).
Hypothesis law_marker : fortran = true -> forall z rest,
  exists y, read_ints 1 (render (UInts [[z]] :: rest)) = Some (y, render rest).

Lemma skip_marker_ok z rest : skip_marker fortran stream read_ints (render (marker fortran z ++ rest)) = render rest.
Proof.
  unfold skip_marker, marker. destruct fortran eqn:E; [|reflexivity]. cbn [app].
  destruct (law_marker eq_refl z rest) as [y ->]. reflexivity.
Qed.

Lemma marker_good z : Forall good_sec (marker fortran z).
Proof.
  unfold marker, good_sec. destruct fortran; [|constructor]. constructor; [|constructor]. constructor; [|constructor].
  split; [discriminate|]. right. auto.
Qed.

Definition rows_good (w : nat) (rows : list cell) : Prop :=
  Forall (fun r => length r = w /\ Forall (fun i => good_int (i + 1)%Z) r) rows /\ good_int (Z.of_nat (length rows)).

Lemma out_rows_good t w rows : (t = "pyramid" -> w = 5) -> w <> 0 -> rows_good w rows ->
  Forall (fun r => length r = w /\ Forall good_int r) (out_rows t rows).
Proof.
  intros Ht Hw [H _].
  assert (G : Forall (fun r => length r = w /\ Forall good_int r) (one_based rows)).
  { apply Forall_map. eapply Forall_impl; [|exact H]. cbn. intros r [H1 H2]. rewrite map_length. split; [exact H1|]. now apply Forall_map. }
  unfold out_rows. destruct (String.eqb_spec t "pyramid") as [E|E]; [|exact G].
  specialize (Ht E). subst w. apply Forall_map. eapply Forall_impl; [|exact G]. cbn. intros r [H1 H2].
  destruct r as [|? [|? [|? [|? [|? [|]]]]]]; try discriminate. split; [reflexivity|].
  repeat (match goal with H : Forall _ (_ :: _) |- _ => inversion H; clear H; subst end). repeat constructor; auto.
Qed.
Lemma wide_good w (rows : list cell) : w <> 0 -> Forall (fun r => length r = w /\ Forall good_int r) rows ->
  Forall (fun r => r <> [] /\ Forall good_int r) rows.
Proof. intros Hw H. eapply Forall_impl; [|exact H]. cbn. intros r [H1 H2]. split; [destruct r; cbn in *; congruence|exact H2]. Qed.
Lemma wide_sec w (rows : list cell) : w <> 0 -> Forall (fun r => length r = w /\ Forall good_int r) rows -> good_sec (UInts rows).
Proof. intros Hw H. eapply Forall_impl; [|exact (wide_good w rows Hw H)]. cbn. tauto. Qed.

Lemma one_based_back rows : map (map (fun i => i - 1)%Z) (one_based rows) = rows.
Proof.
  unfold one_based. rewrite map_map. rewrite <- (map_id rows) at 2. apply map_ext. intros r. rewrite map_map.
  rewrite <- (map_id r) at 2. apply map_ext. intros. lia.
Qed.

Lemma read_rows_ok (R : string -> list cell) types rest :
  Forall (fun t => (fst t = "pyramid" -> snd t = 5) /\ snd t <> 0 /\ rows_good (snd t) (R (fst t))) types ->
  Forall good_sec rest ->
  let secs := map (fun t => UInts (out_rows (fst t) (R (fst t)))) (filter (fun t => negb (Nat.eqb (length (R (fst t))) 0)) types) in
  read_rows stream read_ints (map (fun t => (fst t, snd t, Z.of_nat (length (R (fst t))))) types) (render (secs ++ rest)) =
    Ok (blocks_for types R, render rest) /\ Forall good_sec (secs ++ rest).
Proof.
  intros H Hr. induction H as [|[t w] types (Ht & Hw & Hg) H IH]; [split; [reflexivity|exact Hr]|].
  cbn [map filter fst snd blocks_for flat_map read_rows]. cbn [fst snd] in *. destruct IH as [IH1 IH2].
  assert (Hn : length (R t) = 0 \/ length (R t) <> 0) by lia. destruct Hn as [Hn|Hn].
  - rewrite Hn. cbn [Nat.eqb negb Z.of_nat Z.eqb]. apply length_zero_iff_nil in Hn. rewrite Hn. cbn [app]. split; [exact IH1|exact IH2].
  - replace (Nat.eqb (length (R t)) 0) with false by lia. cbn [negb map app fst].
    replace (Z.of_nat (length (R t)) =? 0)%Z with false by lia. replace (Z.of_nat (length (R t)) <? 0)%Z with false by lia.
    pose proof (out_rows_good t w (R t) Ht Hw Hg) as Go.
    assert (Lo : Forall (fun r => length r = w) (out_rows t (R t))) by (eapply Forall_impl; [|exact Go]; cbn; tauto).
    assert (Ll : length (out_rows t (R t)) = length (R t)).
    { unfold out_rows, one_based. destruct (String.eqb t "pyramid"); rewrite ?map_length; reflexivity. }
    split; [|constructor; [now apply (wide_sec w)|exact IH2]].
    rewrite law_int; auto.
    2:{ now apply (wide_good w). }
    2:{ rewrite (concat_uniform_length w) by auto. rewrite Ll, Nat2Z.id. lia. }
    cbn [of_option bind fst snd]. rewrite chunks_concat by (auto; lia).
    assert (Eo : (if String.eqb t "pyramid" then mapM (pick pyramid_in) (out_rows t (R t)) else Ok (out_rows t (R t))) = Ok (one_based (R t))).
    { unfold out_rows. destruct (String.eqb_spec t "pyramid") as [E|E]; [|reflexivity].
      specialize (Ht E). subst w. clear - Hg. destruct Hg as [Hg _].
      unfold one_based. induction (R t) as [|r rows IH]; [reflexivity|].
      inversion Hg as [|? ? [H1 _] Hg']; subst. cbn [map mapM]. rewrite pick_out_in by (now rewrite map_length).
      cbn [bind]. rewrite IH by auto. reflexivity. }
    rewrite Eo. cbn [bind]. rewrite IH1. cbn [bind fst snd]. rewrite one_based_back. destruct (R t); [cbn in Hn; congruence|reflexivity].
Qed.

Lemma read_labels_ok (R : string -> list cell) types rest :
  good_int 1%Z -> Forall good_sec rest ->
  let secs := map (fun t => UInts (repeat [1%Z] (length (R (fst t))))) (filter (fun t => negb (Nat.eqb (length (R (fst t))) 0)) types) in
  read_labels stream read_ints (map (fun t : string * nat => (fst t, snd t, Z.of_nat (length (R (fst t))))) types) (render (secs ++ rest)) =
    Ok (labelled 1%Z (blocks_for types R), render rest) /\ Forall good_sec (secs ++ rest).
Proof.
  intros H1 Hr. induction types as [|[t w] types [IH1 IH2]]; [split; [reflexivity|exact Hr]|].
  cbn [map filter fst snd blocks_for flat_map read_labels].
  assert (Hn : length (R t) = 0 \/ length (R t) <> 0) by lia. destruct Hn as [Hn|Hn].
  - rewrite Hn. cbn [Nat.eqb negb Z.of_nat Z.eqb]. apply length_zero_iff_nil in Hn. rewrite Hn. cbn [app]. split; [exact IH1|exact IH2].
  - replace (Nat.eqb (length (R t)) 0) with false by lia. cbn [negb map app fst].
    replace (Z.of_nat (length (R t)) =? 0)%Z with false by lia. replace (Z.of_nat (length (R t)) <? 0)%Z with false by lia.
    assert (G : Forall (fun r => length r = 1 /\ Forall good_int r) (repeat [1%Z] (length (R t)))).
    { apply Forall_forall. intros r Hin. apply repeat_spec in Hin. subst r. repeat constructor. exact H1. }
    assert (Ec : concat (repeat [1%Z] (length (R t))) = repeat 1%Z (length (R t))).
    { generalize (length (R t)). clear. intros n. induction n; cbn; congruence. }
    split; [|constructor; [now apply (wide_sec 1)|exact IH2]].
    rewrite law_int; auto.
    2:{ now apply (wide_good 1). }
    2:{ rewrite Ec, repeat_length, Nat2Z.id. reflexivity. }
    cbn [of_option bind fst snd]. rewrite IH1, Ec. cbn [bind fst snd]. unfold labelled.
    destruct (R t) as [|r0 l] eqn:E; [cbn in Hn; congruence|]. reflexivity.
Qed.

Definition ugrid_fits (m : ugrid_mesh F) : Prop :=
  Forall (fun p => length p = 3 /\ Forall good_real p) (ug_points m) /\ good_int (Z.of_nat (length (ug_points m))) /\
  Forall (fun t => rows_good (snd t) (cells_of (fst t) (ug_cells m))) ugrid_types.

Theorem ugrid_roundtrip (m : ugrid_mesh F) :
  ugrid_fits m -> good_int 1%Z ->
  Forall (fun b => btype b <> "points") (ug_cells m) ->
  (forall t, In t ugrid_types -> length (blocks_of_type (fst t) (ug_cells m)) <= 1) ->
  existsb snd (ug_kinds m) = false \/ (cells_of "triangle" (ug_cells m) = [] /\ cells_of "quad" (ug_cells m) = []) ->
  let R t := cells_of t (ug_cells m) in
  exists secs, write_ugrid fortran mem m = Ok secs /\
    read_ugrid fortran stream read_ints read_reals (render secs) =
      Ok (ug_points m, blocks_for surface_types R ++ blocks_for volume_types R,
          labelled 1 (blocks_for surface_types R) ++ labelled 0 (blocks_for volume_types R)).
Proof.
  intros (Hpts & Hnp & Hrows) Hone Hnop Hle Hkinds R. unfold write_ugrid.
  destruct (collect_ok (ug_cells m) (map (fun t => (fst t, [])) ugrid_types) (length (ug_points m)) Hnop) as (d & Ed & Hd).
  { intros t Ht. left. split.
    - cbn in Ht. unfold rows_for.
      repeat (destruct Ht as [<-|Ht]; [reflexivity|]). destruct Ht.
    - unfold dkeys in Ht. rewrite map_map in Ht. apply in_map_iff in Ht. destruct Ht as (u & <- & Hu). now apply Hle. }
  assert (HR : forall t, In t ugrid_types -> rows_for d (fst t) = R (fst t)).
  { intros t Ht. rewrite Hd.
    - unfold R, rows_for. cbn in Ht. repeat (destruct Ht as [<-|Ht]; [reflexivity|]). destruct Ht.
    - unfold dkeys. rewrite map_map. now apply (in_map fst). }
  rewrite Ed. cbn [bind].
  set (has := fun t : string * nat => negb (Nat.eqb (length (R (fst t))) 0)).
  assert (Es : filter (fun t => negb (Nat.eqb (length (rows_for d (fst t))) 0)) surface_types = filter has surface_types).
  { apply filter_ext_in. intros t Ht. unfold has. rewrite HR; [reflexivity|]. apply in_app_iff. now left. }
  assert (Ev : filter (fun t => negb (Nat.eqb (length (rows_for d (fst t))) 0)) volume_types = filter has volume_types).
  { apply filter_ext_in. intros t Ht. unfold has. rewrite HR; [reflexivity|]. apply in_app_iff. now right. }
  rewrite Es, Ev.
  assert (Is : forall t, In t (filter has surface_types) -> In t ugrid_types).
  { intros t Ht. apply filter_In in Ht. apply in_app_iff. now left. }
  assert (Iv : forall t, In t (filter has volume_types) -> In t ugrid_types).
  { intros t Ht. apply filter_In in Ht. apply in_app_iff. now right. }
  assert (El : mapM (fun t => labels m (length (rows_for d (fst t)))) (filter has surface_types) =
               Ok (map (fun t => repeat [1%Z] (length (R (fst t)))) (filter has surface_types))).
  { apply mapM_ok_in. intros t Ht. rewrite HR by auto. unfold labels. destruct Hkinds as [->|[H1 H2]]; [reflexivity|].
    exfalso. unfold has, R in Ht. cbn [filter surface_types fst] in Ht. rewrite H1, H2 in Ht. cbn in Ht. exact Ht. }
  rewrite El. cbn [bind].
  assert (G : forall t, In t ugrid_types -> (fst t = "pyramid" -> snd t = 5) /\ snd t <> 0 /\ rows_good (snd t) (R (fst t))).
  { intros t Ht. rewrite Forall_forall in Hrows. split; [|split; [|now apply Hrows]]; cbn in Ht;
      repeat (destruct Ht as [<-|Ht]; [cbn; congruence|]); destruct Ht. }
  assert (Evol : mapM (fun t => let rows := one_based (rows_for d (fst t)) in
                            if String.eqb (fst t) "pyramid" then mapM (pick pyramid_out) rows else Ok rows) (filter has volume_types) =
                 Ok (map (fun t => out_rows (fst t) (R (fst t))) (filter has volume_types))).
  { apply mapM_ok_in. intros t Ht. rewrite HR by auto. cbv zeta. unfold out_rows. destruct (String.eqb_spec (fst t) "pyramid") as [E|E]; [|reflexivity].
    apply mapM_ok_in. intros r Hr. apply pick_at. destruct (G t (Iv t Ht)) as (H5 & _ & [Hg _]). specialize (H5 E).
    unfold one_based in Hr. apply in_map_iff in Hr. destruct Hr as (r' & <- & Hr'). rewrite Forall_forall in Hg. destruct (Hg r' Hr') as [L _].
    rewrite map_length, L, H5. unfold pyramid_out. repeat constructor; lia. }
  cbv zeta in Evol. rewrite Evol. cbn [bind]. eexists. split; [reflexivity|].
  rewrite !map_map.
  replace (map (fun t => UInts (one_based (rows_for d (fst t)))) (filter has surface_types))
    with (map (fun t => @UInts F (out_rows (fst t) (R (fst t)))) (filter has surface_types)).
  2:{ apply map_ext_in. intros t Ht. rewrite HR by auto. unfold out_rows. destruct (String.eqb_spec (fst t) "pyramid") as [E|E]; [|reflexivity].
      apply filter_In in Ht. destruct Ht as [Ht _]. cbn in Ht. destruct Ht as [<-|[<-|[]]]; discriminate. }
  rewrite (map_ext_in (fun t => Z.of_nat (length (rows_for d (fst t)))) (fun t => Z.of_nat (length (R (fst t))))) by (intros; now rewrite HR).
  assert (Gm : Forall good_sec (marker fortran (mem m))).
  { apply marker_good. }
  assert (Gs : Forall (fun t => (fst t = "pyramid" -> snd t = 5) /\ snd t <> 0 /\ rows_good (snd t) (R (fst t))) surface_types).
  { apply Forall_forall. intros t Ht. apply G. apply in_app_iff. now left. }
  assert (Gv : Forall (fun t => (fst t = "pyramid" -> snd t = 5) /\ snd t <> 0 /\ rows_good (snd t) (R (fst t))) volume_types).
  { apply Forall_forall. intros t Ht. apply G. apply in_app_iff. now right. }
  destruct (read_rows_ok R volume_types (marker fortran (mem m)) Gv Gm) as [Rv Gv'].
  destruct (read_labels_ok R surface_types _ Hone Gv') as [Rl Gl'].
  destruct (read_rows_ok R surface_types _ Gs Gl') as [Rs Gs'].
  cbv zeta in Rv, Rl, Rs, Gv', Gl', Gs'. fold has in Rv, Rl, Rs, Gv', Gl', Gs'.
  unfold read_ugrid. rewrite skip_marker_ok.
  assert (Gp : Forall (fun r => r <> [] /\ Forall good_real r) (ug_points m)).
  { eapply Forall_impl; [|exact Hpts]. cbn. intros p [H1 H2]. split; [destruct p; discriminate || congruence|exact H2]. }
  assert (Gm2 : forall z rest, Forall good_sec rest -> Forall good_sec (marker fortran z ++ rest)).
  { intros z rest Hrest. apply Forall_app. split; [|exact Hrest]. apply marker_good. }
  assert (Gall : forall t, In t ugrid_types -> good_int (Z.of_nat (length (R (fst t))))) by (intros t Ht; apply (G t Ht)).
  change ([UInts [?a]] ++ ?b) with (UInts [a] :: b).
  rewrite law_int.
  2:{ apply Gm2, Gm2. constructor; [exact Gp|exact Gs']. }
  2:{ constructor; [|constructor]. split; [discriminate|]. constructor; [exact Hnp|]. apply Forall_map, Forall_forall. exact Gall. }
  2:{ reflexivity. }
  cbn [concat]. rewrite app_nil_r. rewrite !skip_marker_ok. replace (Z.of_nat _ <? 0)%Z with false by lia.
  change ([UFloats ?a] ++ ?b) with (UFloats a :: b).
  assert (Lp : Forall (fun p : list F => length p = 3) (ug_points m)) by (eapply Forall_impl; [|exact Hpts]; cbn; tauto).
  rewrite law_real; auto.
  2:{ rewrite (concat_uniform_length 3) by auto. rewrite Nat2Z.id. lia. }
  cbn [of_option bind fst snd].
  change (firstn 2 (combine ugrid_types (map (fun t => Z.of_nat (length (R (fst t)))) ugrid_types)))
    with (map (fun t => (fst t, snd t, Z.of_nat (length (R (fst t))))) surface_types).
  change (skipn 2 (combine ugrid_types (map (fun t => Z.of_nat (length (R (fst t)))) ugrid_types)))
    with (map (fun t => (fst t, snd t, Z.of_nat (length (R (fst t))))) volume_types).
  rewrite Rs. cbn [bind fst snd]. rewrite Rl. cbn [bind fst snd]. rewrite Rv. cbn [bind fst snd].
  rewrite chunks_concat by (auto; lia). reflexivity.
Qed.
End Law.

(** ** Binary files *)
Lemma take_items_ok {A} (e : A -> bytes) (f : bytes -> A) w n (vs : list A) rest :
  0 < w -> (forall a, length (e a) = w) -> Forall (fun v => f (e v) = v) vs -> n = length vs ->
  take_items w f n (flat_map e vs ++ rest) = Some (vs, rest).
Proof.
  intros Hw He Hf ->.
  assert (L : length (flat_map e vs) = length vs * w).
  { rewrite flat_map_concat_map, (concat_uniform_length w), map_length; [lia|]. apply Forall_map, Forall_forall. auto. }
  unfold take_items. rewrite app_length, L. replace (Nat.ltb _ _) with false by lia.
  rewrite firstn_exact, skipn_exact by auto. rewrite flat_map_concat_map, chunks_concat.
  - rewrite map_map. f_equal. f_equal. rewrite <- (map_id vs) at 2. apply map_ext_in. rewrite Forall_forall in Hf. auto.
  - exact Hw.
  - apply Forall_map, Forall_forall. auto.
Qed.

Section Binary.
Context {F : Type}.
Variables (big fortran : bool) (w fw : nat) (fc : codec F).
Hypothesis Hw : 0 < w.
Hypothesis Hfw : 0 < fw.
Hypothesis Hfc : codec_width fc fw.

Lemma bin_law_int rows rest n :
  Forall (fun r => r <> [] /\ Forall (sint_range w) r) rows -> n = length (concat rows) ->
  take_items w (sint_value big) n (ugrid_bytes big w fc (UInts rows :: rest)) = Some (concat rows, ugrid_bytes big w fc rest).
Proof.
  intros H Hn. unfold ugrid_bytes. cbn [flat_map sec_bytes]. apply take_items_ok; auto.
  - intros. apply sint_bytes_length.
  - apply Forall_concat. eapply Forall_impl; [|exact H]. cbn. intros r [_ Hr]. eapply Forall_impl; [|exact Hr]. apply sint_value_bytes.
Qed.
Lemma bin_law_real rows rest n :
  Forall (fun r => r <> [] /\ Forall (exact fc) r) rows -> n = length (concat rows) ->
  take_items fw (dec fc) n (ugrid_bytes big w fc (UFloats rows :: rest)) = Some (concat rows, ugrid_bytes big w fc rest).
Proof.
  intros H Hn. unfold ugrid_bytes. cbn [flat_map sec_bytes]. apply take_items_ok; auto.
  apply Forall_concat. eapply Forall_impl; [|exact H]. cbn. tauto.
Qed.
Lemma bin_law_marker z rest : exists y,
  take_items w (sint_value big) 1 (ugrid_bytes big w fc (UInts [[z]] :: rest)) = Some (y, ugrid_bytes big w fc rest).
Proof.
  unfold ugrid_bytes. cbn [flat_map sec_bytes concat app]. rewrite app_nil_r. unfold take_items.
  pose proof (sint_bytes_length big w z) as L. rewrite app_length, L. replace (Nat.ltb _ _) with false by lia.
  rewrite firstn_exact, skipn_exact by lia. eexists. reflexivity.
Qed.

Theorem ugrid_binary mem (m : ugrid_mesh F) :
  ugrid_fits (sint_range w) (exact fc) m -> sint_range w 1 ->
  Forall (fun b => btype b <> "points") (ug_cells m) ->
  (forall t, In t ugrid_types -> length (blocks_of_type (fst t) (ug_cells m)) <= 1) ->
  existsb snd (ug_kinds m) = false \/ (cells_of "triangle" (ug_cells m) = [] /\ cells_of "quad" (ug_cells m) = []) ->
  let R t := cells_of t (ug_cells m) in
  exists b, write_ugrid_binary fortran mem big w fc m = Ok b /\
    read_ugrid_binary fortran big w fw fc b =
      Ok (ug_points m, blocks_for surface_types R ++ blocks_for volume_types R,
          labelled 1 (blocks_for surface_types R) ++ labelled 0 (blocks_for volume_types R)).
Proof.
  intros Hm H1 Hp Hle Hk R. unfold write_ugrid_binary, read_ugrid_binary.
  destruct (ugrid_roundtrip (sint_range w) (exact fc) bytes (take_items w (sint_value big)) (take_items fw (dec fc)) (ugrid_bytes big w fc) fortran mem) with (m := m)
    as (secs & E1 & E2); auto.
  - intros. now apply bin_law_int.
  - intros. now apply bin_law_real.
  - intros. apply bin_law_marker.
  - rewrite E1. cbn [bind]. eexists. split; [reflexivity|]. exact E2.
Qed.
End Binary.

(** ** ASCII files *)
Section Ascii.
Context {fl : floats}.
Definition reads_back (v : fl) : Prop := word (ffmt v) = true /\ fparse (ffmt v) = Some v.

Lemma ascii_solid (ss : list (usec fl)) : Forall (good_sec (fun _ => True) reads_back false) ss -> solid (ugrid_lines ss).
Proof.
  induction 1 as [|s ss Hs H IH]; [apply solid_nil|]. unfold ugrid_lines. cbn [flat_map]. destruct s as [rows|rows]; cbn [sec_lines].
  - destruct rows as [|r rows]; [exact IH|]. cbn [map app]. apply solid_cons. inversion Hs as [|? ? [Hr _] _]; subst.
    apply blank_row; [apply words_ints|]. destruct r; [congruence|discriminate].
  - destruct rows as [|r rows]; [exact IH|]. cbn [map app]. apply solid_cons. inversion Hs as [|? ? [Hr Hg] _]; subst.
    apply blank_row; [|destruct r; [congruence|discriminate]]. clear - Hg. induction Hg as [|v r [Hv _] H IH]; [reflexivity|]. cbn. now rewrite Hv.
Qed.
Lemma ascii_law_int rows rest n : Forall (good_sec (fun _ => True) reads_back false) rest ->
  Forall (fun r => r <> [] /\ Forall (fun _ : Z => True) r) rows -> n = length (concat rows) ->
  take_ints n (ugrid_lines (UInts rows :: rest)) = Some (concat rows, ugrid_lines rest).
Proof.
  intros Hr H ->. unfold take_ints, ugrid_lines. cbn [flat_map sec_lines]. rewrite <- (map_map (map str_of_Z) row_line).
  rewrite take_rows.
  - rewrite concat_map_map, parse_ints_ok. reflexivity.
  - now apply ascii_solid.
  - apply Forall_map. eapply Forall_impl; [|exact H]. cbn. intros r [Hne _]. split; [apply words_ints|destruct r; [congruence|discriminate]].
  - now rewrite concat_map_map, map_length.
Qed.
Lemma parse_floats_each (vs : list fl) : Forall reads_back vs -> parse_floats (map ffmt vs) = Ok vs.
Proof.
  unfold parse_floats. induction 1 as [|v vs [_ Hv] H IH]; [reflexivity|]. cbn [map mapM]. rewrite Hv. cbn [of_option bind]. now rewrite IH.
Qed.
Lemma words_each (vs : list fl) : Forall reads_back vs -> forallb word (map ffmt vs) = true.
Proof. induction 1 as [|v r [Hv _] H IH]; [reflexivity|]. cbn. now rewrite Hv. Qed.
Lemma ascii_law_real rows rest n : Forall (good_sec (fun _ => True) reads_back false) rest ->
  Forall (fun r => r <> [] /\ Forall reads_back r) rows -> n = length (concat rows) ->
  take_reals n (ugrid_lines (UFloats rows :: rest)) = Some (concat rows, ugrid_lines rest).
Proof.
  intros Hr H ->. unfold take_reals, ugrid_lines. cbn [flat_map sec_lines]. rewrite <- (map_map (map ffmt) row_line).
  rewrite take_rows.
  - rewrite concat_map_map, parse_floats_each; [reflexivity|]. apply Forall_concat. eapply Forall_impl; [|exact H]. cbn. tauto.
  - now apply ascii_solid.
  - apply Forall_map. eapply Forall_impl; [|exact H]. cbn. intros r [Hne Hg]. split; [now apply words_each|destruct r; [congruence|discriminate]].
  - now rewrite concat_map_map, map_length.
Qed.

Theorem ugrid_ascii (m : ugrid_mesh fl) :
  ugrid_fits (fun _ => True) reads_back m ->
  Forall (fun b => btype b <> "points") (ug_cells m) ->
  (forall t, In t ugrid_types -> length (blocks_of_type (fst t) (ug_cells m)) <= 1) ->
  existsb snd (ug_kinds m) = false \/ (cells_of "triangle" (ug_cells m) = [] /\ cells_of "quad" (ug_cells m) = []) ->
  let R t := cells_of t (ug_cells m) in
  exists ls, write_ugrid_ascii m = Ok ls /\
    read_ugrid_ascii ls =
      Ok (ug_points m, blocks_for surface_types R ++ blocks_for volume_types R,
          labelled 1 (blocks_for surface_types R) ++ labelled 0 (blocks_for volume_types R)).
Proof.
  intros Hm Hp Hle Hk R. unfold write_ugrid_ascii, read_ugrid_ascii.
  destruct (ugrid_roundtrip (fun _ => True) reads_back (list string) take_ints take_reals ugrid_lines false (fun _ => 0%Z)) with (m := m)
    as (secs & E1 & E2); auto.
  - intros. now apply ascii_law_int.
  - intros. now apply ascii_law_real.
  - discriminate.
  - rewrite E1. cbn [bind]. eexists. split; [reflexivity|]. exact E2.
Qed.
End Ascii.

(** ** Two blocks of a type *)
Lemma collect_repeated bs1 bs2 bs3 b1 b2 d np :
  In (btype b1) (dkeys d) -> btype b2 = btype b1 -> bdata b1 <> [] -> btype b1 <> "points" ->
  Forall (fun b => btype b <> btype b1) bs2 ->
  collect (bs1 ++ b1 :: bs2 ++ b2 :: bs3) d np = Err ValueError.
Proof.
  revert d np. induction bs1 as [|b bs1 IH]; intros d np Hin E2 Hne Hp H2.
  - cbn [app collect]. destruct (String.eqb_spec (btype b1) "points"); [congruence|].
    destruct (dget (btype b1) d) as [rows|] eqn:Ed; [|apply dget_None in Ed; tauto].
    destruct (Nat.ltb 0 (length rows)); [reflexivity|].
    assert (G : dget (btype b1) (dset (btype b1) (bdata b1) d) = Some (bdata b1)) by apply dget_dset_same.
    revert G. generalize (dset (btype b1) (bdata b1) d). clear d Hin Ed rows. revert np. induction H2 as [|b bs2 Hb H2 IH2]; intros np d G.
    + cbn [app collect]. rewrite E2. destruct (String.eqb_spec (btype b1) "points"); [congruence|]. rewrite G.
      destruct (bdata b1); [congruence|reflexivity].
    + cbn [app collect]. destruct (String.eqb (btype b) "points"); [destruct (Nat.ltb 0 np); [reflexivity|now apply IH2]|].
      destruct (dget (btype b) d) as [rows|] eqn:Ed; [|now apply IH2]. destruct (Nat.ltb 0 (length rows)); [reflexivity|].
      apply IH2. now rewrite dget_dset_other by congruence.
  - cbn [app collect]. destruct (String.eqb (btype b) "points"); [destruct (Nat.ltb 0 np); [reflexivity|now apply IH]|].
    destruct (dget (btype b) d) as [rows|] eqn:Ed; [|now apply IH]. destruct (Nat.ltb 0 (length rows)); [reflexivity|].
    apply IH; auto. rewrite dkeys_dset. destruct (dmem _ _); [exact Hin|]. apply in_app_iff. now left.
Qed.

(** ** File types *)
Lemma split_char_suffix c s : forall p, exists l, split_char c (p ++ String c s) = l ++ split_char c s /\ l <> [].
Proof.
  induction p as [|a p (l & E & Hl)]; cbn [append split_char].
  - rewrite Ascii.eqb_refl. exists [""]. split; [reflexivity|discriminate].
  - rewrite E. destruct (Ascii.eqb a c); [exists ("" :: l); split; [reflexivity|discriminate]|].
    destruct l as [|x l]; [congruence|]. exists (String a x :: l). split; [reflexivity|discriminate].
Qed.
Lemma file_type pre ext t : In (ext, t) ugrid_file_types -> determine_file_type (pre ++ "." ++ ext ++ ".ugrid")%string = t.
Proof.
  intros Hin. unfold determine_file_type. change (pre ++ "." ++ ext ++ ".ugrid")%string with (pre ++ String "." (ext ++ ".ugrid"))%string.
  destruct (split_char_suffix "." (ext ++ ".ugrid") pre) as (l & E & Hl). rewrite E.
  assert (G : Forall (fun kv => split_char "." (fst kv ++ ".ugrid") = [fst kv; "ugrid"] /\ dget (fst kv) ugrid_file_types = Some (snd kv)) ugrid_file_types) by (repeat constructor).
  rewrite Forall_forall in G. destruct (G _ Hin) as [E2 E3]. cbn [fst snd] in E2, E3.
  rewrite E2, app_length. cbn [length]. replace (Nat.ltb 1 (length l + 2)) with true by lia. replace (length l + 2 - 2) with (length l) by lia.
  rewrite app_nth2, Nat.sub_diag by lia. cbn [nth]. 
  now rewrite E3.
Qed.
Lemma file_type_default pre : char_in "." pre = false -> dget pre ugrid_file_types = None -> determine_file_type (pre ++ ".ugrid")%string = (None, false, 4, 4).
Proof.
  intros Hc Hd. unfold determine_file_type. change (pre ++ ".ugrid")%string with (pre ++ String "." "ugrid")%string. rewrite split_char_app by auto.
  cbn [split_char Ascii.eqb Bool.eqb length Nat.ltb Nat.leb Nat.sub nth]. now rewrite Hd.
Qed.
