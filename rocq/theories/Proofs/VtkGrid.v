(** Proofs about structured grids in legacy VTK files (C69). *)
From Coq Require Import ZArith NArith List String Ascii Bool Lia.
From Verif.Lib Require Import Base Facts Facts2 Runs Text TextFacts Lines LinesFacts Bytes BytesFacts File.
From Verif.Model Require Import Core Helpers Vtk Port Numpy VtkFile.
From Verif.Model Require Abaqus.
From Verif.Spec Require Import Core Blocks Vtk VtkFile.
From Verif.Proofs Require Import Blocks RunsBlocks CoreMisc Vtk Vtk51 Grid Numpy Port VtkPort Gmsh22File VtkFile.
Import ListNotations.
Import Model.VtkFile Spec.VtkFile.

Lemma three_digits n a b c : n < a * b * c -> exists i j k, i < a /\ j < b /\ k < c /\ n = i + a * (j + b * k).
Proof.
  intros H. assert (Ha : a <> 0) by (intros ->; lia). assert (Hb : b <> 0) by (intros ->; lia).
  exists (n mod a), ((n / a) mod b), (n / a / b). split; [now apply Nat.mod_upper_bound|]. split; [now apply Nat.mod_upper_bound|]. split.
  - rewrite Nat.div_div by auto. apply Nat.div_lt_upper_bound; [nia|lia].
  - rewrite (Nat.add_comm _ (b * _)), <- Nat.div_mod by auto. rewrite Nat.add_comm. now apply Nat.div_mod.
Qed.
Lemma axes_cases nx ny nz : 1 <= nx -> 1 <= ny -> 1 <= nz -> 1 < nx * ny * nz ->
  exists n, In (box_type (axes nx ny nz), n) vtk_fixed /\ vcode (box_type (axes nx ny nz)) = box_code (axes nx ny nz) /\
    (forall c, vperm (box_type (axes nx ny nz)) c = c) /\ forall q, length (box_corners (axes nx ny nz) q) = n.
Proof.
  intros Hx Hy Hz H. unfold axes. destruct (Nat.ltb_spec 1 nx), (Nat.ltb_spec 1 ny), (Nat.ltb_spec 1 nz); try lia; cbn [app].
  - exists 8. split; [cbv; tauto|]. repeat split.
  - exists 4. split; [cbv; tauto|]. repeat split.
  - exists 4. split; [cbv; tauto|]. repeat split.
  - exists 2. split; [cbv; tauto|]. repeat split.
  - exists 4. split; [cbv; tauto|]. repeat split.
  - exists 2. split; [cbv; tauto|]. repeat split.
  - exists 2. split; [cbv; tauto|]. repeat split.
  - exfalso. assert (nx = 1) by lia. assert (ny = 1) by lia. assert (nz = 1) by lia. subst. cbn in H. lia.
Qed.
Lemma boxes_pos n : 1 <= boxes n. Proof. unfold boxes. lia. Qed.

Lemma grid_cells_ok nx ny nz : 1 <= nx -> 1 <= ny -> 1 <= nz -> 1 < nx * ny * nz ->
  exists conn types cells sp, grid_cells [Z.of_nat nx; Z.of_nat ny; Z.of_nat nz] = Ok (conn, types) /\
    translate_cells conn types = Ok ([Block (box_type (axes nx ny nz)) cells], Some sp) /\
    is_boxes nx ny nz cells /\ sp <> [] /\ forall V (d : list V), length d = length cells -> pieces sp d = [d].
Proof.
  intros Hx Hy Hz H. destruct (generate_cells_ok nx ny nz Hx Hy Hz H) as (rows & Eg & Hl & Hr).
  destruct (axes_cases nx ny nz Hx Hy Hz H) as (n & Hin & Hc & Hperm & Hn). set (ax := axes nx ny nz) in *.
  unfold grid_cells. cbn [map]. rewrite !Nat2Z.id, Eg. cbn [bind fst snd].
  set (cells := map (@tl Z) rows). set (t := box_type ax) in *.
  assert (Rr : Forall (fun r => r = Z.of_nat (length (tl r)) :: tl r /\ length (tl r) = n) rows).
  { apply Forall_forall. intros r Hr'. apply In_nth_error in Hr' as (q & Hq).
    assert (Lq : q < length rows) by (apply nth_error_Some; congruence). rewrite Hl in Lq.
    destruct (three_digits _ _ _ _ Lq) as (i & j & k & Hi & Hj & Hk & ->). destruct (Hr i j k Hi Hj Hk) as [E _]. rewrite E in Hq. injection Hq as <-.
    cbn [tl]. rewrite map_length, Hn. auto. }
  assert (Fb : Forall fixed_block [Block t cells]).
  { constructor; [|constructor]. exists n. split; [exact Hin|]. unfold rows_have. cbn [bdata]. apply Forall_map.
    eapply Forall_impl; [|exact Rr]. now intros r [_ E]. }
  destruct (vtk42_roundtrip _ Fb) as (conn & types & sp & E1 & E2 & E3).
  rewrite write_cells_42_ok in E1 by (eapply Forall_impl; [|exact Fb]; intros b Hb; now left). injection E1 as <- <-.
  assert (EL : all_cells [Block t cells] = map (pair t) cells) by (unfold all_cells; cbn; apply app_nil_r).
  rewrite EL in E2, E3.
  assert (Ec : flat_map enc42 (map (pair t) cells) = concat rows).
  { unfold cells. clear - Rr Hperm. induction Rr as [|r rows [E _] Hrs IH]; [reflexivity|]. cbn [map flat_map concat]. rewrite IH. f_equal.
    unfold enc42. cbn [fst snd]. rewrite Hperm. now symmetry. }
  assert (Et : map code_of (map (pair t) cells) = repeat (box_code ax) (length rows)).
  { rewrite map_map. unfold code_of. cbn [fst]. rewrite Hc. unfold cells. rewrite map_map. clear. induction rows; cbn; [reflexivity|now f_equal]. }
  rewrite app_nil_r in E2. rewrite Ec, Et in E2.
  assert (Ne : cells <> []).
  { unfold cells. intros E. apply map_eq_nil in E. rewrite E in Hl. cbn [length] in Hl. clear - Hl. pose proof (boxes_pos nx). pose proof (boxes_pos ny). pose proof (boxes_pos nz). nia. }
  assert (Eg' : regroup (map (pair t) cells) = [Block t cells]).
  { apply regroup_uniform with (n := n); [exact Ne|]. unfold cells. apply Forall_map. eapply Forall_impl; [|exact Rr]. now intros r [_ E]. }
  assert (Ep : forall V (d : list V), length d = length cells -> pieces sp d = [d]).
  { intros V d Hd. rewrite E3 by (now rewrite map_length). rewrite Eg'. unfold data_for, blen. cbn [map bdata split_lens]. rewrite <- Hd, firstn_all. reflexivity. }
  exists (concat rows), (repeat (box_code ax) (length rows)), cells, sp. split; [reflexivity|]. split; [now rewrite E2, Eg'|].
  split; [|split; [|exact Ep]].
  - split; [unfold cells; rewrite map_length; exact Hl|].
    intros i j k Hi Hj Hk. unfold cells. rewrite nth_error_map. destruct (Hr i j k Hi Hj Hk) as [-> _]. reflexivity.
  - intros ->. specialize (Ep _ (repeat 0 (length cells)) (repeat_length _ _)). discriminate.
Qed.

Lemma grid_points_made {V} dt (xs ys zs : list V) : xs <> [] -> ys <> [] -> zs <> [] ->
  exists pts, grid_points dt xs ys zs = Ok (dt, pts) /\ length pts = length xs * length ys * length zs /\
    forall i j k x y z, nth_error xs i = Some x -> nth_error ys j = Some y -> nth_error zs k = Some z ->
     nth_error pts (i + length xs * (j + length ys * k)) = Some [x; y; z].
Proof.
  intros Hx Hy Hz. destruct (generate_points_ok xs ys zs) as [Hl Hg]. unfold grid_points.
  set (f := fun q : option V * option V * option V => let '(ox, oy, oz) := q in
                           do x <- of_option IndexError ox; do y <- of_option IndexError oy; do z <- of_option IndexError oz; Ok [x; y; z]).
  assert (F : Forall (fun q => exists v, f q = Ok v) (generate_points xs ys zs)).
  { apply Forall_forall. intros q Hq. apply In_nth_error in Hq as (n & Hn).
    assert (Ln : n < length (generate_points xs ys zs)) by (apply nth_error_Some; congruence). rewrite Hl in Ln.
    destruct (three_digits _ _ _ _ Ln) as (i & j & k & Hi & Hj & Hk & ->). rewrite Hg in Hn by auto. injection Hn as <-. cbn [f].
    destruct (nth_error xs i) eqn:E1; [|apply nth_error_None in E1; lia]. destruct (nth_error ys j) eqn:E2; [|apply nth_error_None in E2; lia].
    destruct (nth_error zs k) eqn:E3; [|apply nth_error_None in E3; lia]. cbn. eauto. }
  assert (G : exists pts, mapM f (generate_points xs ys zs) = Ok pts /\ length pts = length (generate_points xs ys zs) /\
              forall n q, nth_error (generate_points xs ys zs) n = Some q -> exists v, f q = Ok v /\ nth_error pts n = Some v).
  { clear - F. induction F as [|q l (v & Hv) Hl IH].
    - exists []. split; [reflexivity|]. split; [reflexivity|]. intros [|n] q E; discriminate.
    - destruct IH as (pts & E & Len & Hn). exists (v :: pts). cbn [mapM]. rewrite Hv. cbn [bind]. rewrite E. split; [reflexivity|].
      split; [cbn; now rewrite Len|]. intros [|n] q' Eq; cbn in Eq |- *; [injection Eq as <-; eauto|now apply Hn]. }
  destruct G as (pts & E & Len & Hn). rewrite E. cbn [bind]. exists pts. split; [reflexivity|]. split; [now rewrite Len|].
  intros i j k x y z Ex Ey Ez.
  assert (Hi : i < length xs) by (apply nth_error_Some; congruence). assert (Hj : j < length ys) by (apply nth_error_Some; congruence).
  assert (Hk : k < length zs) by (apply nth_error_Some; congruence).
  destruct (Hn _ _ (Hg i j k Hi Hj Hk)) as (v & Ev & ->). rewrite Ex, Ey, Ez in Ev. cbn in Ev. now injection Ev as <-.
Qed.

Section Grids.
Context {V : Type} (nk : nums V) (p : vport V) (fits : string -> V -> Prop) (good hard : list (vunt p) -> Prop).
Hypothesis Hp : vport_ok p fits good hard.

Lemma read_from_header ver v51 title w i : (v51 = false /\ In ver old_versions) \/ (v51 = true /\ ver = "5.1"%string) -> one_line title ->
  sect nk p good hard v51 w info0 i ->
  read_vtk nk p (vtk_header p ver title ++ w) =
    (do c <- check_mesh nk i;
     let '(pts, conn, types) := c in
     if v51 then
       do offs <- of_option TypeError (i_offs i);
       do r <- vtk_cells_from_data conn offs types;
       build_mesh pts (fst r) (i_pdata i) (split_data (Some (snd r)) (i_craw i)) (i_fdata i)
     else
       do r <- translate_cells conn types;
       build_mesh pts (fst r) (i_pdata i) (split_data (snd r) (i_craw i)) (i_fdata i)).
Proof.
  intros Hv Ht Sw. destruct (Sw [] (l_good_nil _ _ _ _ Hp) (l_hard_nil _ _ _ _ Hp)) as (G & Hh & L). rewrite app_nil_r in *.
  assert (M1 : one_line (v_mode p)) by (destruct (l_mode _ _ _ _ Hp) as [E|E]; rewrite E; reflexivity).
  assert (F : one_line ("# vtk DataFile Version " ++ ver)%string /\ startswith (strip ("# vtk DataFile Version " ++ ver)%string) "# vtk DataFile Version" = true /\
     String.eqb (substring 23 (String.length (strip ("# vtk DataFile Version " ++ ver)%string) - 23) (strip ("# vtk DataFile Version " ++ ver)%string)) "5.1" = v51).
  { destruct Hv as [[-> Hin] | [-> ->]]; [|repeat split].
    repeat (destruct Hin as [<-|Hin]; [repeat split|]). destruct Hin. }
  destruct F as (F1 & X1 & X2).
  assert (G1 : good (v_line p (v_mode p) ++ w)) by (apply (l_line_good _ _ _ _ Hp); auto).
  assert (G2 : good (v_line p title ++ v_line p (v_mode p) ++ w)) by (apply (l_line_good _ _ _ _ Hp); auto).
  unfold vtk_header. rewrite <- !app_assoc. unfold read_vtk, next_line. rewrite (l_next _ _ _ _ Hp) by auto. rewrite X1. cbn [negb]. cbn iota. rewrite X2.
  transitivity (read_body nk p v51 (v_line p title ++ v_line p (v_mode p) ++ w)); [destruct v51; reflexivity|].
  unfold read_body, next_line. rewrite (l_next _ _ _ _ Hp) by auto. rewrite (l_next _ _ _ _ Hp) by auto.
  assert (M2 : smem (Abaqus.upper (strip (v_mode p))) ["ASCII"; "BINARY"] = true /\ String.eqb (Abaqus.upper (strip (v_mode p))) (v_mode p) = true)
    by (destruct (l_mode _ _ _ _ Hp) as [E|E]; rewrite E; split; reflexivity).
  destruct M2 as [M2 M3]. rewrite M2, M3. cbn [negb]. cbn iota.
  destruct (L (S (length w)) (Nat.lt_succ_diag_r _)) as ([|f] & Hf & E); [cbn in Hf; lia|]. rewrite E. cbn [read_loop].
  rewrite (l_eof _ _ _ _ Hp). reflexivity.
Qed.

Lemma dataset_line v51 t act it ty di nu pts co off tys pd cr fd : word t = true -> dmem t vtk_dataset_infos = true -> Abaqus.upper t = t ->
  sect nk p good hard v51 (v_line p (row_line ["DATASET"; t])) (VInfo act it ty di nu pts co off tys pd cr fd)
    (VInfo "DATASET" it (Some t) di nu pts co off tys pd cr fd).
Proof.
  intros Hw Hm Hu s Hg Hh. assert (W : forallb word ["DATASET"; t]%string = true) by (cbn [forallb]; now rewrite Hw).
  split; [apply (line_good p fits good hard Hp); auto|]. split; [apply (line_hard p fits good hard Hp); [exact W|discriminate]|].
  eapply (leads_section nk p fits good hard Hp v51) with (rest' := s); [reflexivity|exact W|exact Hg|reflexivity| |lia].
  change (Abaqus.upper "DATASET") with "DATASET"%string. unfold read_section. change (String.eqb "DATASET" "METADATA") with false.
  change (String.eqb "DATASET" "DATASET") with true. cbn iota. unfold tok. cbn [nth_error of_option bind]. rewrite Hu, Hm. reflexivity.
Qed.
Lemma dims_line v51 t dims act it di nu pts co off tys pd cr fd : In t ["STRUCTURED_POINTS"; "STRUCTURED_GRID"; "RECTILINEAR_GRID"]%string -> length dims = 3 ->
  sect nk p good hard v51 (v_line p (row_line ("DIMENSIONS" :: map str_of_nat dims)))
    (VInfo act it (Some t) di nu pts co off tys pd cr fd)
    (VInfo act it (Some t) (Some (map Z.of_nat dims)) nu pts co off tys pd cr fd).
Proof.
  intros Ht Hd s Hg Hh. destruct dims as [|nx [|ny [|nz [|]]]]; try discriminate. cbn [map].
  assert (W : forallb word ["DIMENSIONS"; str_of_nat nx; str_of_nat ny; str_of_nat nz]%string = true) by (cbn [forallb]; now rewrite !word_str_of_nat).
  split; [apply (line_good p fits good hard Hp); auto|]. split; [apply (line_hard p fits good hard Hp); [exact W|discriminate]|].
  eapply (leads_subsection nk p fits good hard Hp v51) with (rest' := s); [reflexivity|exact W|exact Hg|reflexivity| |lia].
  change (Abaqus.upper "DIMENSIONS") with "DIMENSIONS"%string. unfold read_subsection. cbn [i_type of_option bind].
  assert (Hs : exists infos, dget t vtk_dataset_infos = Some infos /\ smem "DIMENSIONS" infos = true).
  { repeat (destruct Ht as [<-|Ht]; [eexists; split; reflexivity|]). destruct Ht. }
  destruct Hs as (infos & -> & Hs). cbn [of_option bind]. rewrite Hs. change (String.eqb "DIMENSIONS" "DIMENSIONS") with true. cbn iota.
  unfold parse_ints. cbn [tl mapM]. rewrite !parse_count. reflexivity.
Qed.
Lemma triple_line v51 key ts xs act it di nu pts co off tys pd cr fd : key = "ORIGIN"%string \/ key = "SPACING"%string -> forallb word ts = true -> length ts = 3 ->
  Forall2 (fun t x => n_parse nk "float64" t = Some x) ts xs ->
  sect nk p good hard v51 (v_line p (row_line (key :: ts)))
    (VInfo act it (Some "STRUCTURED_POINTS"%string) di nu pts co off tys pd cr fd)
    (VInfo act it (Some "STRUCTURED_POINTS"%string) di (dset key ("float64"%string, xs) nu) pts co off tys pd cr fd).
Proof.
  intros Hk Hw Hl Hx s Hg Hh.
  assert (W : forallb word (key :: ts) = true) by (cbn [forallb]; rewrite Hw; destruct Hk as [-> | ->]; reflexivity).
  split; [apply (line_good p fits good hard Hp); auto|]. split; [apply (line_hard p fits good hard Hp); [exact W|discriminate]|].
  eapply (leads_subsection nk p fits good hard Hp v51) with (rest' := s); [reflexivity|exact W|exact Hg|destruct Hk as [-> | ->]; reflexivity| |lia].
  assert (Em : mapM (fun t => of_option ValueError (n_parse nk "float64" t)) ts = Ok xs).
  { clear - Hx. induction Hx as [|t x ts xs E _ IH]; [reflexivity|]. cbn [mapM]. rewrite E. cbn [of_option bind]. now rewrite IH. }
  assert (El : length xs = 3) by (rewrite <- Hl; symmetry; eapply Forall2_length; eauto).
  unfold read_subsection. cbn [i_type of_option bind].
  change (dget "STRUCTURED_POINTS" vtk_dataset_infos) with (Some ["DIMENSIONS"; "ORIGIN"; "SPACING"; "ASPECT_RATIO"]%string). cbn [of_option bind].
  destruct Hk as [-> | ->].
  - change (Abaqus.upper "ORIGIN") with "ORIGIN"%string. change (smem "ORIGIN" ["DIMENSIONS"; "ORIGIN"; "SPACING"; "ASPECT_RATIO"]) with true.
    change (String.eqb "ORIGIN" "DIMENSIONS") with false. change (smem "ORIGIN" ["X_COORDINATES"; "Y_COORDINATES"; "Z_COORDINATES"]) with false. cbn iota.
    cbn [tl]. rewrite Em. cbn [bind]. rewrite El. reflexivity.
  - change (Abaqus.upper "SPACING") with "SPACING"%string. change (smem "SPACING" ["DIMENSIONS"; "ORIGIN"; "SPACING"; "ASPECT_RATIO"]) with true.
    change (String.eqb "SPACING" "DIMENSIONS") with false. change (smem "SPACING" ["X_COORDINATES"; "Y_COORDINATES"; "Z_COORDINATES"]) with false. cbn iota.
    cbn [tl]. rewrite Em. cbn [bind]. rewrite El. reflexivity.
Qed.

Definition old_or_real (v51 : bool) (dt : string) : Prop := In dt (if v51 then ["float32"; "float64"]%string else known_42).
Lemma old_name v51 dt : old_or_real v51 dt ->
  dget dt (dtype_names v51) = Some (old_type_name dt) /\ dtype_of v51 (lower (old_type_name dt)) = Ok dt /\ word (old_type_name dt) = true /\
  dmem dt dtype_widths = true.
Proof.
  unfold old_or_real. intros H. destruct v51; cbn [known_42 In] in H; repeat (destruct H as [<-|H]; [repeat split|]); destruct H.
Qed.
Lemma coords_sect v51 key dt xs act it di nu pts co off tys pd cr fd :
  In key ["X_COORDINATES"; "Y_COORDINATES"; "Z_COORDINATES"]%string -> old_or_real v51 dt -> Forall (fits dt) xs ->
  sect nk p good hard v51 (coordinates p key dt xs)
    (VInfo act it (Some "RECTILINEAR_GRID"%string) di nu pts co off tys pd cr fd)
    (VInfo act it (Some "RECTILINEAR_GRID"%string) di (dset key (dt, xs) nu) pts co off tys pd cr fd).
Proof.
  intros Hk Hd Hf s Hg Hh. destruct (old_name _ _ Hd) as (_ & Ed & Hw & Hm). set (vt := old_type_name dt) in *.
  assert (W : forallb word [key; str_of_nat (length xs); vt] = true).
  { cbn [forallb]. rewrite word_str_of_nat, Hw. repeat (destruct Hk as [<-|Hk]; [reflexivity|]). destruct Hk. }
  assert (U : Abaqus.upper key = key /\ smem key vtk_sections = false /\ smem key ["X_COORDINATES"; "Y_COORDINATES"; "Z_COORDINATES"]%string = true /\
    String.eqb key "DIMENSIONS" = false /\ smem key ["DIMENSIONS"; "X_COORDINATES"; "Y_COORDINATES"; "Z_COORDINATES"]%string = true).
  { repeat (destruct Hk as [<-|Hk]; [repeat split|]). destruct Hk. }
  destruct U as (U1 & U2 & U3 & U4 & U5).
  assert (Gp : good (v_put p dt xs ++ s)) by (now apply (l_put_good _ _ _ _ Hp)).
  unfold coordinates. fold vt. rewrite <- app_assoc. split; [apply (line_good p fits good hard Hp); auto|].
  split; [apply (line_hard p fits good hard Hp); [exact W|discriminate]|].
  destruct (l_get _ _ _ _ Hp dt xs s Hm Hf Hg Hh) as (k & _ & Lk & Ek).
  eapply leads_trans; [|apply (leads_blanks nk p fits good hard Hp v51 k s); exact Hg].
  eapply (leads_subsection nk p fits good hard Hp v51); [reflexivity|exact W|exact Gp|now rewrite U1| |exact Lk].
  rewrite U1. unfold read_subsection. cbn [i_type of_option bind].
  change (dget "RECTILINEAR_GRID" vtk_dataset_infos) with (Some ["DIMENSIONS"; "X_COORDINATES"; "Y_COORDINATES"; "Z_COORDINATES"]%string). cbn [of_option bind].
  rewrite U5, U4, U3. unfold tok_int, tok. cbn [nth_error of_option bind]. rewrite parse_count. cbn [of_option bind]. rewrite Ed. cbn [bind].
  rewrite Nat2Z.id, Ek. reflexivity.
Qed.

Lemma structured_sect v51 nx ny nz origin spacing ox oy oz sx sy sz :
  forallb word (origin ++ spacing) = true ->
  Forall2 (fun t x => n_parse nk "float64" t = Some x) origin [ox; oy; oz] ->
  Forall2 (fun t x => n_parse nk "float64" t = Some x) spacing [sx; sy; sz] ->
  sect nk p good hard v51 (structured_points p nx ny nz origin spacing) info0
    (VInfo "DATASET" None (Some "STRUCTURED_POINTS"%string) (Some (map Z.of_nat [nx; ny; nz]))
       [("ORIGIN", ("float64", [ox; oy; oz])); ("SPACING", ("float64", [sx; sy; sz]))]%string None None None None [] [] []).
Proof.
  intros Hw Ho Hs. rewrite forallb_app in Hw. apply andb_true_iff in Hw. destruct Hw as [W1 W2].
  unfold structured_points. eapply (sect_app nk p good hard v51); [apply dataset_line; reflexivity|].
  eapply (sect_app nk p good hard v51); [apply dims_line; [now left|reflexivity]|].
  eapply (sect_app nk p good hard v51); [apply (triple_line v51 "ORIGIN" origin [ox; oy; oz]); auto; apply (Forall2_length _ _ _ Ho)|].
  apply (triple_line v51 "SPACING" spacing [sx; sy; sz]); auto. apply (Forall2_length _ _ _ Hs).
Qed.
Lemma rectilinear_sect v51 dt xs ys zs : old_or_real v51 dt -> Forall (fits dt) (xs ++ ys ++ zs) ->
  sect nk p good hard v51 (rectilinear_grid p dt xs ys zs) info0
    (VInfo "DATASET" None (Some "RECTILINEAR_GRID"%string) (Some (map Z.of_nat [length xs; length ys; length zs]))
       [("X_COORDINATES", (dt, xs)); ("Y_COORDINATES", (dt, ys)); ("Z_COORDINATES", (dt, zs))]%string None None None None [] [] []).
Proof.
  intros Hd Hf. rewrite !Forall_app in Hf. destruct Hf as (F1 & F2 & F3). unfold rectilinear_grid.
  eapply (sect_app nk p good hard v51); [apply dataset_line; reflexivity|].
  eapply (sect_app nk p good hard v51); [apply dims_line; [right; right; now left|reflexivity]|].
  eapply (sect_app nk p good hard v51); [apply coords_sect; [now left|exact Hd|exact F1]|].
  eapply (sect_app nk p good hard v51); [apply coords_sect; [right; now left|exact Hd|exact F2]|].
  apply (coords_sect v51 "Z_COORDINATES" dt zs); [right; right; now left|exact Hd|exact F3].
Qed.
Lemma curved_sect v51 nx ny nz dt pts : old_or_real v51 dt -> Forall (fun q => length q = 3) pts -> Forall (Forall (fits dt)) pts ->
  sect nk p good hard v51 (structured_grid p nx ny nz dt pts) info0
    (VInfo "POINTS" None (Some "STRUCTURED_GRID"%string) (Some (map Z.of_nat [nx; ny; nz])) [] (Some (dt, pts)) None None None [] [] []).
Proof.
  intros Hd H3 Hf. unfold structured_grid.
  eapply (sect_app nk p good hard v51); [apply dataset_line; reflexivity|].
  eapply (sect_app nk p good hard v51); [apply dims_line; [right; now left|reflexivity]|].
  assert (Hk : In dt (known v51)) by (clear - Hd; destruct v51; [cbn in Hd |- *; intuition|exact Hd]).
  destruct (points_sect nk p fits good hard Hp v51 dt pts "DATASET" None (Some "STRUCTURED_GRID"%string) (Some (map Z.of_nat [nx; ny; nz])) [] None None None None [] [] [] Hk H3 Hf) as (w & Ew & Sw).
  unfold write_points in Ew. destruct (old_name _ _ Hd) as (En & _). rewrite En in Ew. cbn [of_option bind] in Ew. injection Ew as <-. exact Sw.
Qed.

(** *** Data *)
Lemma data_lines_sect title n d i t : (title = "POINT_DATA" \/ title = "CELL_DATA")%string ->
  In t ["UNSTRUCTURED_GRID"; "STRUCTURED_POINTS"; "STRUCTURED_GRID"; "RECTILINEAR_GRID"]%string -> i_type i = Some t ->
  1 <= n -> grid_data fits n d ->
  sect nk p good hard false (data_lines p title n d) i (with_data title n d i).
Proof.
  intros Ht Hty Hi Hn (_ & Hd).
  assert (F : Forall (field_ok fits false) d).
  { eapply Forall_impl; [|exact Hd]. intros [name a] (H1 & H2 & _ & H4). cbn [fst snd] in *. split; [exact H1|]. split; [exact H2|].
    cbn [snd]. intros E. rewrite E in H4. cbn in H4. lia. }
  destruct (data_sect nk p fits good hard Hp false title n d i t Ht Hty Hi F) as (w & Ew & Sw).
  assert (E : data_lines p title n d = w).
  { destruct d as [|na d]; [now injection Ew as <-|]. set (fs := na :: d) in *. cbn [write_data_section] in Ew.
    assert (Ef : mapM (write_field p false) fs = Ok (map (fun na => v_line p (row_line [fst na; str_of_nat (fold_right Nat.mul 1 (va_tail (snd na)));
                   str_of_nat (length (va_rows (snd na))); old_type_name (va_dtype (snd na))]) ++ v_put p (va_dtype (snd na)) (concat (va_rows (snd na)))) fs)).
    { clear - F. induction F as [|[name a] l ((Hw & Hm) & (Hd & Htl & Hr) & Hne) _ IH]; [reflexivity|]. cbn [mapM map]. rewrite IH. cbn [fst snd] in *.
      unfold write_field. rewrite word_no_blank by auto. destruct (old_name false (va_dtype a) Hd) as (-> & _). cbn [of_option bind].
      assert (Ec : components a = fold_right Nat.mul 1 (va_tail a)) by (unfold components; destruct Htl as [-> | (k & ->)]; cbn; lia).
      now rewrite Ec. }
    unfold write_data_section, fs in Ew. fold fs in Ew. cbn iota in Ew. unfold write_fields in Ew. rewrite Ef in Ew. cbn [bind] in Ew. injection Ew as <-. reflexivity. }
  rewrite E. exact Sw.
Qed.
Lemma flat1_id n d : grid_data fits n d -> map (fun na : string * varr V => (fst na, flat1 (snd na))) d = d.
Proof.
  intros (_ & H). induction H as [|[name [dt tl rows]] l (_ & _ & H1 & _) _ IH]; [reflexivity|]. cbn [map]. rewrite IH. f_equal. cbn [fst snd] in *. f_equal.
  unfold flat1. cbn [va_dtype va_tail va_rows] in *. destruct tl as [|[|[|]] [|]]; try reflexivity. now destruct H1.
Qed.
Lemma check_mesh_same (i i' : vinfo V) : i_type i = i_type i' -> i_dims i = i_dims i' -> i_nums i = i_nums i' -> i_points i = i_points i' ->
  i_conn i = i_conn i' -> i_types i = i_types i' -> check_mesh nk i = check_mesh nk i'.
Proof. intros E1 E2 E3 E4 E5 E6. unfold check_mesh. now rewrite E1, E2, E3, E4, E5, E6. Qed.
Lemma with_data_same title n (d : dict (varr V)) i : let i' := with_data title n d i in
  i_type i' = i_type i /\ i_dims i' = i_dims i /\ i_nums i' = i_nums i /\ i_points i' = i_points i /\ i_conn i' = i_conn i /\ i_types i' = i_types i.
Proof. unfold with_data. destruct d; repeat split. Qed.
Lemma with_point_data n np d i : grid_data fits np d -> i_pdata i = [] ->
  i_pdata (with_data "POINT_DATA" n d i) = d /\ i_craw (with_data "POINT_DATA" n d i) = i_craw i /\ i_fdata (with_data "POINT_DATA" n d i) = i_fdata i.
Proof.
  intros Hd Hi. unfold with_data. destruct d as [|na d]; [auto|]. set (fs := na :: d) in *. unfold update_data. cbn [i_active i_pdata i_craw i_fdata].
  change (String.eqb "POINT_DATA" "POINT_DATA") with true. change (String.eqb "POINT_DATA" "CELL_DATA") with false. cbn [orb]. cbn iota.
  unfold fs at 1. fold fs. rewrite (flat1_id _ _ Hd), Hi. rewrite !dupdate_nil; auto; [apply (proj1 Hd)|rewrite dupdate_nil; apply (proj1 Hd)].
Qed.
Lemma with_cell_data n np d i : grid_data fits np d -> i_craw i = [] ->
  i_craw (with_data "CELL_DATA" n d i) = d /\ i_pdata (with_data "CELL_DATA" n d i) = i_pdata i /\ i_fdata (with_data "CELL_DATA" n d i) = i_fdata i.
Proof.
  intros Hd Hi. unfold with_data. destruct d as [|na d]; [auto|]. set (fs := na :: d) in *. unfold update_data. cbn [i_active i_pdata i_craw i_fdata].
  change (String.eqb "CELL_DATA" "CELL_DATA") with true. change (String.eqb "CELL_DATA" "POINT_DATA") with false. cbn [orb]. cbn iota.
  unfold fs at 1. fold fs. rewrite (flat1_id _ _ Hd), Hi. rewrite !dupdate_nil; auto; [apply (proj1 Hd)|rewrite dupdate_nil; apply (proj1 Hd)].
Qed.

Lemma grid_read ver title w i t dt pts nx ny nz pd cd :
  In ver old_versions -> one_line title -> 1 <= nx -> 1 <= ny -> 1 <= nz -> 1 < nx * ny * nz ->
  sect nk p good hard false w info0 i -> In t ["UNSTRUCTURED_GRID"; "STRUCTURED_POINTS"; "STRUCTURED_GRID"; "RECTILINEAR_GRID"]%string -> i_type i = Some t ->
  i_pdata i = [] -> i_craw i = [] -> i_fdata i = [] -> length pts = nx * ny * nz ->
  check_mesh nk i = (do c <- grid_cells [Z.of_nat nx; Z.of_nat ny; Z.of_nat nz]; Ok (Some (dt, pts), fst c, snd c)) ->
  grid_data fits (nx * ny * nz) pd -> grid_data fits (boxes nx * boxes ny * boxes nz) cd ->
  exists cells, read_vtk nk p (grid_file p ver title w (nx * ny * nz) pd (boxes nx * boxes ny * boxes nz) cd) =
      Ok (grid_mesh dt pts (box_type (axes nx ny nz)) cells pd cd) /\ is_boxes nx ny nz cells.
Proof.
  intros Hv Ht Hx Hy Hz H Sw Hty Hi Hpd Hcr Hfd Hlen Hck Dp Dc.
  set (np := nx * ny * nz) in *. set (nc := boxes nx * boxes ny * boxes nz) in *.
  assert (Hnc : 1 <= nc) by (unfold nc; pose proof (boxes_pos nx); pose proof (boxes_pos ny); pose proof (boxes_pos nz); clear - H0 H1 H2; nia).
  set (i1 := with_data "POINT_DATA" np pd i). set (i2 := with_data "CELL_DATA" nc cd i1).
  destruct (with_data_same "POINT_DATA" np pd i) as (A1 & A2 & A3 & A4 & A5 & A6). fold i1 in A1, A2, A3, A4, A5, A6.
  destruct (with_data_same "CELL_DATA" nc cd i1) as (B1 & B2 & B3 & B4 & B5 & B6). fold i2 in B1, B2, B3, B4, B5, B6.
  assert (S2 : sect nk p good hard false (w ++ data_lines p "POINT_DATA" np pd ++ data_lines p "CELL_DATA" nc cd) info0 i2).
  { eapply (sect_app nk p good hard false); [exact Sw|]. eapply (sect_app nk p good hard false).
    - apply (data_lines_sect "POINT_DATA" np pd i t); auto. lia.
    - apply (data_lines_sect "CELL_DATA" nc cd i1 t); auto. congruence. }
  unfold grid_file. rewrite (read_from_header _ false _ _ _ (or_introl (conj eq_refl Hv)) Ht S2).
  destruct (grid_cells_ok nx ny nz Hx Hy Hz H) as (conn & types & cells & sp & E1 & E2 & E3 & E4 & E5).
  rewrite (check_mesh_same i2 i) by congruence. rewrite Hck, E1. cbn [bind fst snd]. rewrite E2. cbn [bind fst snd].
  destruct (with_point_data np _ pd i Dp Hpd) as (P1 & P2 & P3). fold i1 in P1, P2, P3.
  assert (C0 : i_craw i1 = []) by congruence. destruct (with_cell_data nc _ cd i1 Dc C0) as (Q1 & Q2 & Q3). fold i2 in Q1, Q2, Q3.
  rewrite Q1, Q2, Q3, P1, P3, Hfd. exists cells. split; [|exact E3].
  assert (Hs : split_data (Some sp) cd = map (fun na => (fst na, VCd (va_dtype (snd na)) (va_tail (snd na)) [va_rows (snd na)])) cd).
  { rewrite split_data_some by (now right). apply map_ext_in. intros na Hin. destruct Dc as (_ & Dc). rewrite Forall_forall in Dc. destruct (Dc _ Hin) as (_ & _ & _ & L).
    rewrite E5; [reflexivity|]. rewrite L. symmetry. apply E3. }
  rewrite Hs. unfold build_mesh. cbn [of_option bind fst snd mapM btype].
  assert (D : exists d, cellblock_dim (box_type (axes nx ny nz)) = Ok d) by (clear; unfold box_type; destruct (axes nx ny nz) as [|? [|? [|]]]; eexists; vm_compute; reflexivity).
  destruct D as (d & ->). cbn [bind].
  replace (forallb (fun na : string * varr V => Nat.eqb (length (va_rows (snd na))) (length pts)) pd) with true.
  2:{ symmetry. apply forallb_forall. intros na Hin. destruct Dp as (_ & Dp). rewrite Forall_forall in Dp. destruct (Dp _ Hin) as (_ & _ & _ & L). rewrite L, Hlen. apply Nat.eqb_refl. }
  cbn [negb]. cbn iota.
  match goal with |- context [forallb ?f (map ?g cd)] => replace (forallb f (map g cd)) with true end; [reflexivity|].
  symmetry. apply forallb_forall. intros x Hin. apply in_map_iff in Hin. destruct Hin as (na & <- & Hin).
  destruct Dc as (_ & Dc). rewrite Forall_forall in Dc. destruct (Dc _ Hin) as (_ & _ & _ & L).
  cbn [snd vc_rows length combine forallb fst]. unfold blen. cbn [bdata]. rewrite L. destruct E3 as (-> & _). fold nc. rewrite !Nat.eqb_refl. reflexivity.
Qed.

Theorem structured_points_read ver title nx ny nz origin spacing ox oy oz sx sy sz pd cd :
  In ver old_versions -> one_line title -> 1 <= nx -> 1 <= ny -> 1 <= nz -> 1 < nx * ny * nz ->
  forallb word (origin ++ spacing) = true ->
  Forall2 (fun t x => n_parse nk "float64" t = Some x) origin [ox; oy; oz] ->
  Forall2 (fun t x => n_parse nk "float64" t = Some x) spacing [sx; sy; sz] ->
  (forall o s n, length (n_axis nk o s n) = n) ->
  grid_data fits (nx * ny * nz) pd -> grid_data fits (boxes nx * boxes ny * boxes nz) cd ->
  exists pts cells, read_vtk nk p (grid_file p ver title (structured_points p nx ny nz origin spacing) (nx * ny * nz) pd (boxes nx * boxes ny * boxes nz) cd) =
      Ok (grid_mesh "float64" pts (box_type (axes nx ny nz)) cells pd cd) /\
    is_grid (n_axis nk ox sx nx) (n_axis nk oy sy ny) (n_axis nk oz sz nz) pts cells.
Proof.
  intros Hv Ht Hx Hy Hz H Hw Ho Hs Ha Dp Dc.
  assert (Ne : forall o s n, 1 <= n -> n_axis nk o s n <> []) by (intros o s n Hn E; pose proof (Ha o s n) as L; rewrite E in L; cbn in L; lia).
  destruct (grid_points_made "float64" (n_axis nk ox sx nx) (n_axis nk oy sy ny) (n_axis nk oz sz nz)) as (pts & P1 & P2 & P3); auto.
  rewrite !Ha in P2. exists pts.
  destruct (grid_read ver title _ _ "STRUCTURED_POINTS" "float64" pts nx ny nz pd cd Hv Ht Hx Hy Hz H (structured_sect false nx ny nz _ _ _ _ _ _ _ _ Hw Ho Hs)) as (cells & E & B); auto.
  - right; now left.
  - unfold check_mesh. cbn [i_type of_option bind]. change (String.eqb "STRUCTURED_POINTS" "UNSTRUCTURED_GRID") with false.
    change (String.eqb "STRUCTURED_POINTS" "STRUCTURED_POINTS") with true. cbn iota. cbn [i_dims i_nums of_option bind].
    match goal with |- context [dget "ORIGIN" ?l] => change (dget "ORIGIN" l) with (Some ("float64"%string, [ox; oy; oz])); change (dget "SPACING" l) with (Some ("float64"%string, [sx; sy; sz])) end.
    cbn [of_option bind snd map]. rewrite !Nat2Z.id, P1. reflexivity.
  - exists cells. split; [exact E|]. unfold is_grid. rewrite !Ha in *. auto.
Qed.
Theorem rectilinear_read ver title dt xs ys zs pd cd :
  In ver old_versions -> one_line title -> xs <> [] -> ys <> [] -> zs <> [] -> 1 < length xs * length ys * length zs ->
  In dt known_42 -> Forall (fits dt) (xs ++ ys ++ zs) ->
  grid_data fits (length xs * length ys * length zs) pd -> grid_data fits (boxes (length xs) * boxes (length ys) * boxes (length zs)) cd ->
  exists pts cells, read_vtk nk p (grid_file p ver title (rectilinear_grid p dt xs ys zs) (length xs * length ys * length zs) pd
                                     (boxes (length xs) * boxes (length ys) * boxes (length zs)) cd) =
      Ok (grid_mesh dt pts (box_type (axes (length xs) (length ys) (length zs))) cells pd cd) /\
    is_grid xs ys zs pts cells.
Proof.
  intros Hv Ht Hx Hy Hz H Hd Hf Dp Dc. destruct (grid_points_made dt xs ys zs Hx Hy Hz) as (pts & P1 & P2 & P3). exists pts.
  assert (L : forall l : list V, l <> [] -> 1 <= length l) by (intros [|]; [congruence|cbn; lia]).
  destruct (grid_read ver title _ _ "RECTILINEAR_GRID" dt pts (length xs) (length ys) (length zs) pd cd Hv Ht (L _ Hx) (L _ Hy) (L _ Hz) H (rectilinear_sect false dt xs ys zs Hd Hf)) as (cells & E & B); auto.
  - right; right; right; now left.
  - unfold check_mesh. cbn [i_type of_option bind]. change (String.eqb "RECTILINEAR_GRID" "UNSTRUCTURED_GRID") with false.
    change (String.eqb "RECTILINEAR_GRID" "STRUCTURED_POINTS") with false. change (String.eqb "RECTILINEAR_GRID" "RECTILINEAR_GRID") with true. cbn iota. cbn [i_dims i_nums of_option bind].
    match goal with |- context [dget "X_COORDINATES" ?l] => change (dget "X_COORDINATES" l) with (Some (dt, xs)); change (dget "Y_COORDINATES" l) with (Some (dt, ys)); change (dget "Z_COORDINATES" l) with (Some (dt, zs)) end.
    cbn [of_option bind snd fst map]. rewrite P1. reflexivity.
  - exists cells. split; [exact E|]. unfold is_grid. auto.
Qed.
Theorem structured_grid_read ver title nx ny nz dt pts pd cd :
  In ver old_versions -> one_line title -> 1 <= nx -> 1 <= ny -> 1 <= nz -> 1 < nx * ny * nz ->
  In dt known_42 -> length pts = nx * ny * nz -> Forall (fun q => length q = 3) pts -> Forall (Forall (fits dt)) pts ->
  grid_data fits (nx * ny * nz) pd -> grid_data fits (boxes nx * boxes ny * boxes nz) cd ->
  exists cells, read_vtk nk p (grid_file p ver title (structured_grid p nx ny nz dt pts) (nx * ny * nz) pd (boxes nx * boxes ny * boxes nz) cd) =
      Ok (grid_mesh dt pts (box_type (axes nx ny nz)) cells pd cd) /\ is_boxes nx ny nz cells.
Proof.
  intros Hv Ht Hx Hy Hz H Hd Hl H3 Hf Dp Dc.
  apply (grid_read ver title _ _ "STRUCTURED_GRID" dt pts nx ny nz pd cd Hv Ht Hx Hy Hz H (curved_sect false nx ny nz dt pts Hd H3 Hf)); auto.
  right; right; now left.
Qed.

(** *** Version 5.1 *)
Lemma grid_51 title w i c : one_line title -> sect nk p good hard true w info0 i -> check_mesh nk i = Ok c -> i_offs i = None ->
  read_vtk nk p (vtk_header p "5.1" title ++ w) = Err TypeError.
Proof.
  intros Ht Sw Hc Ho. rewrite (read_from_header _ true _ _ _ (or_intror (conj eq_refl eq_refl)) Ht Sw), Hc. destruct c as [[pts conn] types]. cbn [bind]. now rewrite Ho.
Qed.
Theorem structured_points_51 title nx ny nz origin spacing ox oy oz sx sy sz :
  one_line title -> 1 <= nx -> 1 <= ny -> 1 <= nz -> 1 < nx * ny * nz ->
  forallb word (origin ++ spacing) = true ->
  Forall2 (fun t x => n_parse nk "float64" t = Some x) origin [ox; oy; oz] ->
  Forall2 (fun t x => n_parse nk "float64" t = Some x) spacing [sx; sy; sz] ->
  (forall o s n, length (n_axis nk o s n) = n) ->
  read_vtk nk p (vtk_header p "5.1" title ++ structured_points p nx ny nz origin spacing) = Err TypeError.
Proof.
  intros Ht Hx Hy Hz H Hw Ho Hs Ha.
  destruct (grid_cells_ok nx ny nz Hx Hy Hz H) as (conn & types & cells & sp & E1 & E2 & E3 & E4).
  assert (Ne : forall o s n, 1 <= n -> n_axis nk o s n <> []) by (intros o s n Hn E; pose proof (Ha o s n) as L; rewrite E in L; cbn in L; lia).
  destruct (grid_points_made "float64" (n_axis nk ox sx nx) (n_axis nk oy sy ny) (n_axis nk oz sz nz)) as (pts & P1 & P2 & P3); auto.
  eapply grid_51; [exact Ht|apply (structured_sect true nx ny nz _ _ _ _ _ _ _ _ Hw Ho Hs)| |reflexivity].
  unfold check_mesh. cbn [i_type of_option bind]. change (String.eqb "STRUCTURED_POINTS" "UNSTRUCTURED_GRID") with false.
  change (String.eqb "STRUCTURED_POINTS" "STRUCTURED_POINTS") with true. cbn iota. cbn [i_dims i_nums of_option bind].
  match goal with |- context [dget "ORIGIN" ?l] => change (dget "ORIGIN" l) with (Some ("float64"%string, [ox; oy; oz])); change (dget "SPACING" l) with (Some ("float64"%string, [sx; sy; sz])) end.
  cbn [of_option bind snd map]. rewrite !Nat2Z.id, P1. cbn [bind]. rewrite E1. reflexivity.
Qed.
Theorem rectilinear_51 title dt xs ys zs : one_line title -> xs <> [] -> ys <> [] -> zs <> [] -> 1 < length xs * length ys * length zs ->
  In dt ["float32"; "float64"]%string -> Forall (fits dt) (xs ++ ys ++ zs) ->
  read_vtk nk p (vtk_header p "5.1" title ++ rectilinear_grid p dt xs ys zs) = Err TypeError.
Proof.
  intros Ht Hx Hy Hz H Hd Hf.
  assert (L : forall l : list V, l <> [] -> 1 <= length l) by (intros [|]; [congruence|cbn; lia]).
  destruct (grid_cells_ok _ _ _ (L _ Hx) (L _ Hy) (L _ Hz) H) as (conn & types & cells & sp & E1 & _).
  destruct (grid_points_made dt xs ys zs Hx Hy Hz) as (pts & P1 & P2 & P3).
  eapply grid_51; [exact Ht|apply (rectilinear_sect true dt xs ys zs Hd Hf)| |reflexivity].
  unfold check_mesh. cbn [i_type of_option bind]. change (String.eqb "RECTILINEAR_GRID" "UNSTRUCTURED_GRID") with false.
  change (String.eqb "RECTILINEAR_GRID" "STRUCTURED_POINTS") with false. change (String.eqb "RECTILINEAR_GRID" "RECTILINEAR_GRID") with true. cbn iota. cbn [i_dims i_nums of_option bind].
  match goal with |- context [dget "X_COORDINATES" ?l] => change (dget "X_COORDINATES" l) with (Some (dt, xs)); change (dget "Y_COORDINATES" l) with (Some (dt, ys)); change (dget "Z_COORDINATES" l) with (Some (dt, zs)) end.
  cbn [of_option bind snd fst map]. rewrite P1. cbn [bind]. rewrite E1. reflexivity.
Qed.
Theorem structured_grid_51 title nx ny nz dt pts : one_line title -> 1 <= nx -> 1 <= ny -> 1 <= nz -> 1 < nx * ny * nz ->
  In dt ["float32"; "float64"]%string -> Forall (fun q => length q = 3) pts -> Forall (Forall (fits dt)) pts ->
  read_vtk nk p (vtk_header p "5.1" title ++ structured_grid p nx ny nz dt pts) = Err TypeError.
Proof.
  intros Ht Hx Hy Hz H Hd H3 Hf. destruct (grid_cells_ok nx ny nz Hx Hy Hz H) as (conn & types & cells & sp & E1 & _).
  eapply grid_51; [exact Ht|apply (curved_sect true nx ny nz dt pts Hd H3 Hf)| |reflexivity].
  unfold check_mesh. cbn [i_type i_dims i_points of_option bind map]. change (String.eqb "STRUCTURED_GRID" "UNSTRUCTURED_GRID") with false.
  change (String.eqb "STRUCTURED_GRID" "STRUCTURED_POINTS") with false. change (String.eqb "STRUCTURED_GRID" "RECTILINEAR_GRID") with false. cbn iota. rewrite E1. reflexivity.
Qed.
End Grids.
