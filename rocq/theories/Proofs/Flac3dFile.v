(** FLAC3D files, written and read. *)
From Verif.Lib Require Import Base Facts Facts2 Text TextFacts Lines LinesFacts BytesFacts.
From Verif.Model Require Import Core Info Tables Snoc Abaqus Flac3d.
From Verif.Spec Require Import Core Blocks Flac3d.
From Verif.Proofs Require Import Blocks Gmsh22 Gmsh22File Info Abaqus Snoc Xdmf Flac3d Flac3dSets.
Local Arguments str_of_nat : simpl never.
Local Arguments str_of_Z : simpl never.

(** ** The mesh *)
Definition zone_width (t : string) : nat := match dget t zone_shapes with Some s => sh_corners s | None => 0 end.

Section Mesh.
Context {F : Type} (g : geom F).

(** A cell as written. *)
Definition cell_written (pts : list (list F)) (tc : string * cell) : string * cell :=
  match dget (fst tc) zone_shapes with
  | Some s => match dget (sh_type s) meshio_to_flac3d_order, dget (sh_type s) meshio_to_flac3d_order_2 with
              | Some o1, Some o2 => (sh_type s, zone_written g pts s o1 o2 (snd tc))
              | _, _ => tc
              end
  | None => tc
  end.
Lemma written_cells pts bs n : Forall (zone_block n) bs -> all_cells (map (block_written g pts) bs) = map (cell_written pts) (all_cells bs).
Proof.
  induction 1 as [|b bs (s & Hs & _) _ IH]; [reflexivity|]. cbn [map]. rewrite !all_cells_cons, map_app, IH. f_equal.
  destruct (shape_orders _ _ Hs) as (_ & o1 & o2 & q & E1 & E2 & _).
  unfold block_written. rewrite Hs, E1, E2. cbn [btype bdata]. rewrite !map_map. apply map_ext. intros c. unfold cell_written. cbn [fst snd].
  now rewrite Hs, E1, E2.
Qed.

Lemma select_length p row : length (select p row) = length p.
Proof. unfold select. apply map_length. Qed.
Lemma shape_self t s : dget t zone_shapes = Some s -> dget (sh_type s) zone_shapes = Some s /\ length (sh_mirror s) = sh_corners s.
Proof. intros H. apply dget_In in H. each_shape H; split; reflexivity. Qed.

(** Every cell of a zone block, as written and as read. *)
Lemma cell_facts pts bs n t c : Forall (zone_block n) bs -> In (t, c) (all_cells bs) -> exists s,
  dget t zone_shapes = Some s /\ fst (cell_written pts (t, c)) = sh_type s /\ length (snd (cell_written pts (t, c))) = sh_corners s /\
  Forall (fun i => (0 <= i < Z.of_nat n)%Z) (snd (cell_written pts (t, c))).
Proof.
  intros H Hin. unfold all_cells in Hin. apply in_flat_map in Hin. destruct Hin as (b & Hb & Hc). apply in_map_iff in Hc.
  destruct Hc as (c' & E & Hc). injection E as <- <-. rewrite Forall_forall in H. destruct (H b Hb) as (s & Hs & Hr).
  rewrite Forall_forall in Hr. destruct (Hr c' Hc) as [Hl Hv]. exists s. split; [exact Hs|].
  destruct (shape_orders _ _ Hs) as (_ & o1 & o2 & q & E1 & E2 & _ & _ & L1 & L2 & _ & B1 & B2 & _).
  unfold cell_written. cbn [fst snd]. rewrite Hs, E1, E2. cbn [fst snd]. split; [reflexivity|].
  unfold zone_written. destruct (right_handed g pts s c'); rewrite select_length; (split; [assumption|]);
    apply select_valid; auto; (eapply Forall_impl; [|eassumption]; cbn; intros; lia).
Qed.

Lemma written_widths pts bs n : Forall (zone_block n) bs ->
  Forall (fun tc => length (snd tc) = zone_width (fst tc)) (map (cell_written pts) (all_cells bs)).
Proof.
  intros H. apply Forall_forall. intros tc Hin. apply in_map_iff in Hin. destruct Hin as ([t c] & <- & Hc).
  destruct (cell_facts pts bs n t c H Hc) as (s & Hs & -> & -> & _). unfold zone_width. now rewrite (proj1 (shape_self _ _ Hs)).
Qed.

Lemma cells_back pts bs n : Forall (zone_block n) bs ->
  from_flac3d (regroup (map (cell_written pts) (all_cells bs))) = Ok (regroup (map (zone_seen g pts) (all_cells bs))).
Proof.
  intros H. apply from_regroup.
  assert (X : forall l, (forall t c, In (t, c) l -> In (t, c) (all_cells bs)) ->
    Forall2 (fun tc tc' => fst tc' = fst tc /\ (length (snd tc') = length (snd tc) /\
    exists q, dget (fst tc) flac3d_to_meshio_order = Some q /\ permute q (snd tc) = Some (snd tc')))
    (map (cell_written pts) l) (map (zone_seen g pts) l)); [|apply X; auto].
  induction l as [|[t c] l IH]; intros Hl; cbn [map]; constructor; [|apply IH; intros; apply Hl; now right].
  destruct (cell_facts pts bs n t c H (Hl t c (or_introl eq_refl))) as (s & Hs & E1 & E2 & _).
  rewrite E1, E2. destruct (shape_orders _ _ Hs) as (_ & o1 & o2 & q & O1 & O2 & Q & _ & _ & _ & _ & _ & _ & _ & _ & _ & Lq & _).
  split; [unfold zone_seen; cbn [fst snd]; now rewrite Hs|]. split.
  - unfold zone_seen. cbn [fst snd]. rewrite Hs. cbn [snd]. rewrite select_length.
    destruct (right_handed g pts s c); [apply seq_length|apply (shape_self _ _ Hs)].
  - exists q. split; [exact Q|]. rewrite <- (seen_back g pts t s o1 o2 q c Hs O1 O2 Q). unfold cell_written. cbn [fst snd]. now rewrite Hs, O1, O2.
Qed.

Lemma blens bs : sum_nat (map blen bs) = length (all_cells bs).
Proof. symmetry. apply all_cells_length. Qed.

Theorem assemble_ok (pts : list (list F)) pids bs (nm : string -> string) (sets : dict (list (list Z))) n :
  Forall (zone_block n) bs -> Forall (fun kv => zone_set bs (snd kv)) sets -> NoDup (map (fun kv => nm (fst kv)) sets) ->
  let out := regroup (map (zone_seen g pts) (all_cells bs)) in
  let ids := map Z.of_nat (seq 1 (length (all_cells bs))) in
  assemble (FlacRaw pts pids [] (regroup (map (cell_written pts) (all_cells bs))) [] ids []
    (map (fun kv => (nm (fst kv), written_set bs (snd kv))) sets))
  = Ok (FlacOut pts out (data_for out ids) (sets_seen nm bs out sets)).
Proof.
  intros Hb Hs Hn out ids. unfold assemble. cbn [fr_fids fr_zids fr_fcells fr_zcells fr_fsets fr_zsets fr_points length app Z.of_nat].
  rewrite (cells_back pts bs n Hb). cbn [bind renumber]. fold out.
  rewrite (map_ext _ (fun i => i)) by (intros; lia). rewrite map_id.
  set (S0 := map (fun kv => (nm (fst kv), running bs (snd kv))) sets).
  assert (E : renumber ids 0 (map (fun kv => (nm (fst kv), written_set bs (snd kv))) sets) = Ok S0).
  { assert (Ew : map (fun kv => (nm (fst kv), written_set bs (snd kv))) sets = map (fun kv => (fst kv, map (fun i => (i + 1)%Z) (snd kv))) S0).
    { unfold S0. rewrite map_map. apply map_ext_in. intros [k s] Hin. cbn [fst snd]. f_equal. apply written_running.
      rewrite Forall_forall in Hs. destruct (Hs _ Hin) as [H2 _]. cbn in H2. symmetry. eapply Forall2_length; eauto. }
    rewrite Ew. destruct (Nat.eq_0_gt_0_cases (length (all_cells bs))) as [Z|Z].
    - destruct sets as [|[k s] sets]; [unfold ids; now rewrite Z|]. exfalso. inversion Hs as [|? ? [H2 Hne] _]; subst. cbn [snd] in *.
      assert (R := running_range bs s H2). rewrite blens, Z in R.
      apply (running_nonempty bs s); [symmetry; eapply Forall2_length; eauto|auto|]. destruct (running bs s) as [|x l]; [reflexivity|]. inversion R; lia.
    - apply renumber_ok; auto. unfold S0. apply Forall_map. eapply Forall_impl; [|exact Hs]. intros [k s] [H2 Hne]. cbn [fst snd] in *.
      split; [apply running_nonempty; auto; symmetry; eapply Forall2_length; eauto|]. rewrite <- blens. now apply running_range. }
  rewrite E. cbn [bind].
  assert (Ed : dupdate [] S0 = S0) by (apply dupdate_nil; unfold S0, dkeys; rewrite map_map; exact Hn).
  rewrite Ed. unfold sets_seen, data_for, S0. rewrite map_map. f_equal. f_equal. apply map_ext_in. intros [k s] Hin. cbn [fst snd].
  f_equal. apply split_set_ok. rewrite Forall_forall in Hs. destruct (Hs _ Hin) as [H2 _]. cbn [snd] in H2.
  eapply Forall_impl; [|apply running_range; exact H2]. cbn. intros; lia.
Qed.
End Mesh.

(** ** Text *)
Section Ascii.
Context {fl : floats} (g : geom fl).
Definition loops (st : flac_raw fl) ls (r : result (flac_raw fl)) := forall fuel, length ls <= fuel -> flac_loop fuel st ls = r.

Lemma loops_nil st : loops st [] (Ok st).
Proof. intros [|fuel] _; reflexivity. Qed.
Lemma loops_comment st l s rest r : split_ws l = "*"%string :: s -> loops st rest r -> loops st (l :: rest) r.
Proof.
  intros E H [|fuel] L; [cbn in L; lia|]. cbn [flac_loop]. destruct st. rewrite E. apply H. cbn in L. lia.
Qed.

Lemma split_pad k s : split_ws (join "" (repeat " "%string k) ++ s) = split_ws s.
Proof.
  induction k as [|k IH]; [reflexivity|]. cbn [repeat]. destruct k as [|k].
  - cbn [repeat join String.concat]. rewrite str_char_app. now apply split_ws_space.
  - cbn [repeat] in *. rewrite join_cons, !str_app_assoc, str_char_app. rewrite split_ws_space by reflexivity. exact IH.
Qed.
Lemma point_words k (x y z : fl) : floats_ok fl ->
  split_ws (join (String tab "") ["G"; pad_left 8 (str_of_nat (S k)); ffmt x; ffmt y; ffmt z]%string)
  = ["G"; str_of_nat (S k); ffmt x; ffmt y; ffmt z]%string.
Proof.
  intros Hf. rewrite !join_cons, !str_char_app.
  change (String "G" (String tab ?s)) with ("G" ++ String tab s)%string. rewrite split_ws_word_space by reflexivity. f_equal.
  unfold pad_left. rewrite str_app_assoc, split_pad. rewrite split_ws_word_space by (auto using word_str_of_nat). f_equal.
  rewrite split_ws_word_space by (try apply Hf; reflexivity). f_equal. rewrite split_ws_word_space by (try apply Hf; reflexivity). f_equal.
  cbn [join String.concat]. apply split_ws_word_end, Hf.
Qed.

Lemma points_lines (kps : list (nat * list fl)) ls : mapM gridpoint_line kps = Ok ls -> Forall (fun kp => length (snd kp) = 3) kps -> floats_ok fl ->
  forall P I fc zc fi zi fs zs rest r,
  loops (FlacRaw (P ++ map snd kps) (I ++ map (fun kp => Z.of_nat (S (fst kp))) kps) fc zc fi zi fs zs) rest r ->
  loops (FlacRaw P I fc zc fi zi fs zs) (ls ++ rest) r.
Proof.
  intros E H Hf. apply mapM_Forall2 in E. induction E as [|[k p] l kps ls E _ IH]; intros P I fc zc fi zi fs zs rest r R.
  - cbn [map] in R. rewrite !app_nil_r in R. exact R.
  - inversion H as [|? ? Hp Hps]; subst. cbn [snd] in Hp. do 4 (destruct p as [|? p]; try discriminate). unfold gridpoint_line in E. cbv beta iota delta [snd fst] in E.
    assert (W := point_words k f f0 f1 Hf). remember (join _ _) as line in E, W. clear Heqline. injection E as <-. cbn [app]. intros [|fuel] L; [cbn in L; lia|]. cbn [flac_loop]. rewrite W.
    change (String.eqb "G" "G") with true. cbv iota. unfold read_point. cbn [nth_error of_option bind skipn].
    rewrite str_of_nat_Z, parse_Z_str_of_Z. cbn [of_option bind].
    change [ffmt f; ffmt f0; ffmt f1] with (map ffmt [f; f0; f1]). rewrite parse_floats_ok by auto. cbn [bind fst snd].
    apply (IH Hps); [|cbn in L; lia]. rewrite <- !app_assoc. exact R.
Qed.

Lemma resolve_seq n i : (0 <= i < Z.of_nat n)%Z -> resolve (map (fun k => Z.of_nat (S k)) (seq 0 n)) (i + 1) = Ok i.
Proof.
  intros Hi. unfold resolve. rewrite (id_map_get _ (Z.to_nat i)).
  - cbn [of_option bind]. f_equal. lia.
  - apply FinFun.Injective_map_NoDup; [intros a b; lia|apply seq_NoDup].
  - rewrite nth_error_map, (nth_error_nth' _ 0) by (rewrite seq_length; lia). rewrite seq_nth by lia. cbn. f_equal. lia.
Qed.
Lemma resolve_all n c : Forall (fun i => (0 <= i < Z.of_nat n)%Z) c ->
  mapM (resolve (map (fun k => Z.of_nat (S k)) (seq 0 n))) (map (fun i => (i + 1)%Z) c) = Ok c.
Proof. intros H. apply mapM_Forall2. induction H; cbn [map]; constructor; auto. now apply resolve_seq. Qed.

(** A zone that can be written. *)
Definition zone_cell (n : nat) (tc : string * cell) : Prop :=
  exists s t, dget t zone_shapes = Some s /\ fst tc = sh_type s /\ length (snd tc) = sh_corners s /\
    Forall (fun i => (0 <= i < Z.of_nat n)%Z) (snd tc).

Lemma zone_line_step n P fc zc fi zi fs zs code k t c rest r :
  zone_cell n (t, c) -> dget t meshio_to_flac3d_type = Some code ->
  let pids := map (fun k => Z.of_nat (S k)) (seq 0 n) in
  loops (FlacRaw P pids fc (snoc_cell zc t c) fi (zi ++ [Z.of_nat (S k)]) fs zs) rest r ->
  loops (FlacRaw P pids fc zc fi zi fs zs) (zone_line "Z" code (k, c) :: rest) r.
Proof.
  intros (s & t0 & Hs & Ht & Hl & Hc) Ec pids R [|fuel] L; [cbn in L; lia|]. cbn [fst snd] in *. subst t.
  destruct (shape_orders _ _ Hs) as (_ & o1 & o2 & q & _ & _ & _ & _ & _ & _ & _ & _ & _ & _ & _ & _ & _ & Zn & _ & code' & Ec' & Hw & Hb).
  assert (code' = code) by congruence. subst code'.
  cbn [flac_loop]. unfold zone_line, row_line. cbn [fst snd app].
  rewrite split_ws_join.
  2:{ cbn [forallb]. rewrite Hw, word_str_of_nat. cbn [andb]. rewrite <- (map_map (fun i => (i + 1)%Z) str_of_Z). apply words_ints. }
  change (String.eqb "Z" "G") with false. change (String.eqb "Z" "Z") with true. cbv iota. unfold read_cell. cbn [nth_error of_option bind skipn nth].
  rewrite str_of_nat_Z, parse_Z_str_of_Z. cbn [of_option bind]. rewrite <- (map_map (fun i => (i + 1)%Z) str_of_Z), parse_ints_ok. cbn [bind].
  unfold pids at 1. rewrite resolve_all by auto. cbn [bind]. destruct (String.eqb_spec code "B7"); [congruence|]. cbn [bind fst snd].
  unfold update_cells. rewrite Hl, Zn. cbn [of_option bind]. apply R. cbn in L. lia.
Qed.

Lemma zones_lines n (bs : list block) : forall gid ls, zone_lines gid bs = Ok ls -> Forall (zone_cell n) (all_cells bs) ->
  let pids := map (fun k => Z.of_nat (S k)) (seq 0 n) in
  forall P fc zc fi zi fs zs rest r,
  loops (FlacRaw P pids fc (fold_left (fun bs tc => snoc_cell bs (fst tc) (snd tc)) (all_cells bs) zc) fi
    (zi ++ map Z.of_nat (seq (S gid) (length (all_cells bs)))) fs zs) rest r ->
  loops (FlacRaw P pids fc zc fi zi fs zs) (ls ++ rest) r.
Proof.
  induction bs as [|b bs IH]; intros gid ls E H pids P fc zc fi zi fs zs rest r R.
  - injection E as <-. cbn in R. rewrite app_nil_r in R. exact R.
  - cbn [zone_lines] in E. destruct (dget (btype b) meshio_to_flac3d_type) as [code|] eqn:Ec; [|discriminate]. cbn [of_option bind] in E.
    destruct (zone_lines (gid + blen b) bs) as [l2|] eqn:E2; [|discriminate]. cbn [bind] in E. injection E as <-.
    rewrite all_cells_cons in H, R. apply Forall_app in H. destruct H as [H1 H2]. rewrite <- app_assoc.
    specialize (IH _ _ E2 H2). cbv zeta in IH. fold pids in IH. clear E2 H2.
    unfold blen in *. revert gid zc zi H1 R IH. generalize (bdata b). induction l as [|c rows IHr]; intros gid zc zi H1 R IH.
    + cbn [length seq combine map app] in *. apply IH. cbn [length] in *. rewrite Nat.add_0_r in *. exact R.
    + inversion H1 as [|? ? Hc H1']; subst. cbn [length seq combine map app] in *.
      apply (zone_line_step n P fc zc fi zi fs zs code gid (btype b) c); [exact Hc|exact Ec|]. apply IHr; auto.
      * cbn [fold_left fst snd] in R. rewrite <- app_assoc. exact R.
      * intros P0 fc0 zc0 fi0 zi0 fs0 zs0 rest0 r0 R0. apply IH. rewrite <- Nat.add_succ_comm. exact R0.
Qed.

Lemma after_written : after_name " SLOT 1" = Some ("SLOT", "1")%string.
Proof. reflexivity. Qed.
Lemma quote_in a s : char_in """" (String a s) = false -> char_in "'" (String a s) = false ->
  is_quote a = false /\ char_in """" s = false /\ char_in "'" s = false.
Proof.
  cbn [char_in]. intros H1 H2. apply orb_false_iff in H1, H2. destruct H1 as [A1 B1], H2 as [A2 B2].
  unfold is_quote. rewrite Ascii.eqb_sym, A1, Ascii.eqb_sym, A2. auto.
Qed.
Lemma lazy_written l : quotable l -> lazy_name (l ++ """ SLOT 1") = Some (l, "SLOT", "1")%string.
Proof.
  unfold quotable. induction l as [|a l IH]; intros [H1 H2]; [reflexivity|]. apply quote_in in H1; auto. destruct H1 as (Hq & H1 & H3).
  cbn [append lazy_name]. rewrite Hq, IH by auto. reflexivity.
Qed.
Lemma header_written l : quotable l -> group_header ("ZGROUP """ ++ l ++ """ SLOT 1") = Some ("ZGROUP", l, "SLOT", "1")%string.
Proof.
  intros H. unfold group_header. change (span_upper ("ZGROUP """ ++ l ++ """ SLOT 1")) with ("ZGROUP"%string, (" """ ++ l ++ """ SLOT 1")%string).
  cbv iota. change (String.eqb "ZGROUP" "") with false. cbv iota.
  change (drop_spaces (" """ ++ l ++ """ SLOT 1")) with (String """" (l ++ """ SLOT 1")). cbv iota.
  change (is_quote """") with true. cbv iota. now rewrite lazy_written.
Qed.

Lemma chunks_nonempty {A} n (l : list A) : 0 < n -> Forall (fun r => r <> []) (chunks n l).
Proof.
  intros Hn. unfold chunks. generalize (length l). intros f. revert l. induction f as [|f IH]; intros l; [constructor|]. cbn [chunks_fuel].
  destruct l as [|x l]; constructor; auto. destruct n; [lia|]. discriminate.
Qed.

Definition stops (rest : list string) : Prop := group_data rest = Ok ([], rest).
Lemma table_data d rest : stops rest -> group_data (table_lines d ++ rest) = Ok (d, rest).
Proof.
  intros Hs. unfold table_lines. rewrite <- (chunks_back 20 d) at 2 by lia.
  assert (Hn := @chunks_nonempty Z 20 d ltac:(lia)). induction Hn as [|r rs Hr _ IH]; [exact Hs|]. cbn [map app group_data concat].
  rewrite str_char_app, split_ws_space by reflexivity. unfold row_line. rewrite split_ws_join by apply words_ints.
  destruct r as [|z r]; [congruence|]. cbn [map].
  assert (E : smem (str_of_Z z) ["*"; "ZGROUP"; "FGROUP"]%string = false).
  { apply not_true_iff_false. intros E. unfold smem in E. apply existsb_exists in E. destruct E as (w & Hw & E). apply String.eqb_eq in E.
    assert (Ep := parse_Z_str_of_Z z). rewrite E in Ep. destruct Hw as [<-|[<-|[<-|[]]]]; discriminate. }
  rewrite E. change (str_of_Z z :: map str_of_Z r) with (map str_of_Z (z :: r)). rewrite parse_ints_ok. cbn [bind]. unfold row_line in IH. rewrite IH. reflexivity.
Qed.

Lemma groups_lines (sets : dict (list Z)) : Forall (fun kv => quotable (fst kv)) sets ->
  forall P I fc zc fi zi fs zs rest r, NoDup (dkeys zs ++ map (fun kv => zone_name (fst kv)) sets) -> stops rest ->
  loops (FlacRaw P I fc zc fi zi fs (zs ++ map (fun kv => (zone_name (fst kv), snd kv)) sets)) rest r ->
  loops (FlacRaw P I fc zc fi zi fs zs) (flat_map (group_lines "ZGROUP") sets ++ rest) r.
Proof.
  induction 1 as [|[l d] sets Hl Hq IH]; intros P I fc zc fi zi fs zs rest r Hn Hs R.
  - cbn [map flat_map app] in *. now rewrite app_nil_r in R.
  - cbn [flat_map group_lines fst snd map] in *. rewrite <- app_assoc. cbn [app].
    assert (Hs' : stops (flat_map (group_lines "ZGROUP") sets ++ rest)).
    { destruct sets as [|[l' d'] sets]; [exact Hs|]. cbn [flat_map group_lines fst snd app]. unfold stops. cbn [group_data].
      change ("ZGROUP" ++ " """ ++ l' ++ """ SLOT 1")%string with ("ZGROUP" ++ String " " (String """" (l' ++ """ SLOT 1")))%string.
      rewrite split_ws_word_space by reflexivity. reflexivity. }
    change (group_lines "ZGROUP" (l, d)) with (("ZGROUP" ++ " """ ++ l ++ """ SLOT 1")%string :: table_lines d). cbn [app].
    intros [|fuel] L; [cbn in L; lia|]. cbn [flac_loop].
    change ("ZGROUP" ++ " """ ++ l ++ """ SLOT 1")%string with ("ZGROUP" ++ String " " (String """" (l ++ """ SLOT 1")))%string.
    rewrite split_ws_word_space by reflexivity.
    change (String.eqb "ZGROUP" "G") with false. change (String.eqb "ZGROUP" "Z") with false. change (String.eqb "ZGROUP" "F") with false.
    change (String.eqb "ZGROUP" "ZGROUP") with true. cbv iota.
    unfold read_group. change ("ZGROUP" ++ String " " (String """" (l ++ """ SLOT 1")))%string with ("ZGROUP """ ++ l ++ """ SLOT 1")%string.
    rewrite header_written by auto. cbn [of_option bind].
    change (smem "ZGROUP" ["ZGROUP"; "FGROUP"]%string && String.eqb "SLOT" "SLOT") with true. cbv iota.
    rewrite table_data by exact Hs'. cbn [bind fst snd].
    change ("zone:" ++ l ++ ":" ++ "1")%string with (zone_name l).
    rewrite dset_new.
    2:{ intros Hin. apply NoDup_remove_2 in Hn. apply Hn. apply in_or_app. now left. }
    apply IH; auto.
    + unfold dkeys. rewrite map_app. cbn [map fst]. rewrite <- app_assoc. exact Hn.
    + rewrite <- app_assoc. exact R.
    + clear - L. cbn [length] in L. rewrite !app_length in L. rewrite app_length. lia.
Qed.
End Ascii.

(** ** Whole text files *)
Section AsciiFile.
Context {fl : floats} (g : geom fl).

Lemma gridpoints_ok (kps : list (nat * list fl)) : Forall (fun kp => length (snd kp) = 3) kps -> exists ls, mapM gridpoint_line kps = Ok ls.
Proof.
  induction 1 as [|[k p] kps Hp _ (ls & IH)]; [exists []; reflexivity|]. cbn [snd] in Hp. do 4 (destruct p as [|? p]; try discriminate).
  cbn [mapM]. rewrite IH. unfold gridpoint_line at 1. cbv beta iota delta [snd fst]. cbn [bind]. eauto.
Qed.
Lemma zone_lines_ok bs n : Forall (zone_cell n) (all_cells bs) -> Forall (fun b => dmem (btype b) meshio_to_flac3d_type = true) bs ->
  forall gid, exists ls, zone_lines gid bs = Ok ls.
Proof.
  intros _. induction 1 as [|b bs Hb _ IH]; intros gid; [exists []; reflexivity|]. cbn [zone_lines]. unfold dmem in Hb.
  destruct (dget (btype b) meshio_to_flac3d_type); [|discriminate]. cbn [of_option bind]. destruct (IH (gid + blen b)) as (ls & ->). cbn [bind]. eauto.
Qed.

Lemma zone_name_inj a b : zone_name a = zone_name b -> a = b.
Proof. unfold zone_name. intros H. apply append_cancel_l in H. now apply append_cancel_r in H. Qed.

Lemma enumerate_ids (pts : list (list fl)) : map (fun kp => Z.of_nat (S (fst kp))) (enumerate pts) = map (fun k => Z.of_nat (S k)) (seq 0 (length pts)).
Proof. unfold enumerate. rewrite <- (map_map fst (fun k => Z.of_nat (S k))). now rewrite map_fst_combine by now rewrite seq_length. Qed.

Theorem flac3d_raw v date (m : flac_in fl) : floats_ok fl ->
  Forall (fun p => length p = 3) (fi_points m) -> Forall (zone_block (length (fi_points m))) (fi_cells m) ->
  NoDup (dkeys (fi_sets m)) -> Forall (fun kv => quotable (fst kv) /\ zone_set (fi_cells m) (snd kv)) (fi_sets m) ->
  exists ls, write_flac3d g v date m = Ok (ls, sets_after m) /\
    flac_loop (length ls) empty_raw ls = Ok (FlacRaw (fi_points m) (map (fun k => Z.of_nat (S k)) (seq 0 (length (fi_points m)))) []
      (regroup (map (cell_written g (fi_points m)) (all_cells (fi_cells m)))) [] (map Z.of_nat (seq 1 (length (all_cells (fi_cells m))))) []
      (map (fun kv => (zone_name (fst kv), written_set (fi_cells m) (snd kv))) (fi_sets m))).
Proof.
  intros Hf Hp Hb Hn Hs. set (pts := fi_points m) in *. set (bs := fi_cells m) in *.
  assert (Hk : Forall (fun kp => length (snd kp) = 3) (enumerate pts)).
  { apply Forall_forall. intros [k p] Hin. apply in_combine_r in Hin. rewrite Forall_forall in Hp. now apply Hp. }
  destruct (gridpoints_ok _ Hk) as (pl & Epl).
  assert (Hc : Forall (zone_cell (length pts)) (all_cells (map (block_written g pts) bs))).
  { rewrite (written_cells g pts bs _ Hb). apply Forall_forall. intros tc Hin. apply in_map_iff in Hin. destruct Hin as ([t c] & <- & Hin).
    destruct (cell_facts g pts bs _ t c Hb Hin) as (s & Hs1 & H1 & H2 & H3). exists s, t. auto. }
  destruct (zone_lines_ok (map (block_written g pts) bs) _ Hc) with (gid := 0) as (zl & Ezl).
  { apply Forall_map. eapply Forall_impl; [|exact Hb]. intros b (s & Es & _). unfold block_written. rewrite Es.
    destruct (shape_orders _ _ Es) as (_ & o1 & o2 & q & E1 & E2 & _ & _ & _ & _ & _ & _ & _ & _ & _ & _ & _ & _ & _ & code & Ec & _).
    rewrite E1, E2. cbn [btype]. unfold dmem. now rewrite Ec. }
  eexists. split.
  - unfold write_flac3d. fold pts bs. rewrite Epl. cbn [bind]. rewrite (translate_ok g pts bs Hp Hb). cbn [bind]. rewrite Ezl. cbn [bind]. reflexivity.
  - set (zsl := map (fun kv => (fst kv, written_set bs (snd kv))) (fi_sets m)).
    assert (Ez : zsets m = zsl).
    { unfold zsets. fold bs. destruct bs as [|b bs'] eqn:Eb; [|reflexivity]. unfold zsl. destruct (fi_sets m) as [|[k s] S]; [reflexivity|].
      exfalso. inversion Hs as [|? ? [_ [H1 H2]] _]; subst. cbn [snd] in *. inversion H1; subst. now apply H2. }
    rewrite Ez.
    assert (R : loops empty_raw ([("* FLAC3D grid produced by meshio v" ++ v)%string; ("* " ++ date)%string; "* GRIDPOINTS"%string] ++ pl
      ++ ["* ZONES"%string] ++ zl ++ ["* ZONE GROUPS"%string] ++ flat_map (group_lines "ZGROUP") zsl ++ ["* FACES"; "* FACE GROUPS"]%string)
      (Ok (FlacRaw pts (map (fun k => Z.of_nat (S k)) (seq 0 (length pts))) [] (regroup (map (cell_written g pts) (all_cells bs))) []
        (map Z.of_nat (seq 1 (length (all_cells bs)))) [] (map (fun kv => (zone_name (fst kv), snd kv)) zsl)))).
    { cbn [app]. unfold empty_raw.
      eapply loops_comment.
      { change ("* FLAC3D grid produced by meshio v" ++ v)%string with ("*" ++ String " " ("FLAC3D grid produced by meshio v" ++ v))%string.
        apply split_ws_word_space; reflexivity. }
      eapply loops_comment.
      { change ("* " ++ date)%string with ("*" ++ String " " date)%string. apply split_ws_word_space; reflexivity. }
      eapply loops_comment; [reflexivity|].
      eapply points_lines; [exact Epl|exact Hk|exact Hf|]. cbn [app].
      assert (Es : map snd (enumerate pts) = pts) by (unfold enumerate; apply map_snd_combine; now rewrite seq_length).
      rewrite Es, enumerate_ids.
      eapply loops_comment; [reflexivity|]. eapply (zones_lines (length pts)); [exact Ezl|exact Hc|]. cbn [app].
      eapply loops_comment; [reflexivity|].
      rewrite (written_cells g pts bs _ Hb), map_length.
      assert (Ef := snoc_fold zone_width (map (cell_written g pts) (all_cells bs)) [] (written_widths g pts bs _ Hb)). cbn [regroup app] in Ef.
      rewrite Ef.
      apply groups_lines.
      - unfold zsl. apply Forall_map. eapply Forall_impl; [|exact Hs]. cbn. tauto.
      - cbn [dkeys map app]. unfold zsl. rewrite map_map. cbn [fst]. rewrite <- (map_map fst zone_name).
        apply FinFun.Injective_map_NoDup; [exact zone_name_inj|exact Hn].
      - reflexivity.
      - cbn [app]. eapply loops_comment; [reflexivity|]. eapply loops_comment; [reflexivity|]. apply loops_nil. }
    rewrite (R _ (le_n _)). unfold zsl. rewrite map_map. reflexivity.
Qed.

Theorem flac3d_ascii v date (m : flac_in fl) : floats_ok fl ->
  Forall (fun p => length p = 3) (fi_points m) -> Forall (zone_block (length (fi_points m))) (fi_cells m) ->
  NoDup (dkeys (fi_sets m)) -> Forall (fun kv => quotable (fst kv) /\ zone_set (fi_cells m) (snd kv)) (fi_sets m) ->
  exists ls, write_flac3d g v date m = Ok (ls, sets_after m) /\
    let out := regroup (map (zone_seen g (fi_points m)) (all_cells (fi_cells m))) in
    read_flac3d (fl := fl) ls = Ok (FlacOut (fi_points m) out (data_for out (map Z.of_nat (seq 1 (length (all_cells (fi_cells m))))))
      (sets_seen zone_name (fi_cells m) out (fi_sets m))).
Proof.
  intros Hf Hp Hb Hn Hs. destruct (flac3d_raw v date m Hf Hp Hb Hn Hs) as (ls & Ew & Er). exists ls. split; [exact Ew|].
  cbv zeta. unfold read_flac3d. rewrite Er. cbn [bind].
  apply (assemble_ok g (fi_points m) _ (fi_cells m) zone_name (fi_sets m) (length (fi_points m)) Hb).
  - eapply Forall_impl; [|exact Hs]. cbn. tauto.
  - rewrite <- (map_map fst zone_name). apply FinFun.Injective_map_NoDup; [exact zone_name_inj|exact Hn].
Qed.
End AsciiFile.
