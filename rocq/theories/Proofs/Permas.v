From Coq Require Import Lia.
From Verif.Lib Require Import Base Facts Facts2 Text TextFacts Lines LinesFacts.
From Verif.Model Require Import Core Tables Abaqus Permas.
From Verif.Spec Require Import Core Mdpa Permas.
From Verif.Spec Require Flac3d.
From Verif.Proofs Require Import Ply Gmsh Mdpa Abaqus Flac3d.
Local Arguments str_of_nat : simpl never.
Local Arguments str_of_Z : simpl never.

Lemma prefix_not c s : char_in c s = false -> String.prefix (String c "") s = false.
Proof.
  destruct s as [|a s]; [reflexivity|]. cbn [char_in String.prefix]. intros H. apply orb_false_iff in H. destruct H as [H _].
  destruct (Ascii.ascii_dec c a) as [->|]; [rewrite Ascii.eqb_refl in H; discriminate|reflexivity].
Qed.
Lemma prefix_head c s : String.prefix (String c "") (String c s) = true.
Proof. cbn [String.prefix]. destruct (Ascii.ascii_dec c c); [now destruct s|congruence]. Qed.
Lemma ends_bang_not s : char_in "!" s = false -> ends_bang s = false.
Proof.
  induction s as [|a s IH]; [reflexivity|]. cbn [char_in]. intros H. apply orb_false_iff in H. destruct H as [H1 H2].
  cbn [ends_bang]. destruct s; [now rewrite Ascii.eqb_sym|auto].
Qed.
Lemma split_row ts : ts <> [] -> forallb word ts = true -> split_char " " (row_line ts) = ts.
Proof.
  intros N H. apply split_join_char; auto. rewrite forallb_forall in *. intros s Hs. rewrite no_space_blank; [reflexivity|].
  apply word_no_space, H, Hs.
Qed.
Lemma words_nonempty ts : forallb word ts = true -> filter (fun w => negb (String.eqb w "")) ts = ts.
Proof.
  induction ts as [|t ts IH]; [reflexivity|]. cbn [forallb filter]. intros H. apply andb_true_iff in H. destruct H as [H1 H2].
  destruct (String.eqb_spec t ""); [subst; discriminate|]. cbn [negb]. now rewrite IH.
Qed.
(** The first letter of a row that starts with a number *)
Lemma head_not c n s : is_digit c = false -> c <> "-"%char -> String.prefix (String c "") (str_of_nat n ++ s) = false.
Proof.
  intros H1 H2. assert (E := char_in_nat c n H1 H2). assert (W := word_str_of_nat n). destruct (str_of_nat n) as [|a t]; [discriminate|].
  cbn [append String.prefix]. cbn [char_in] in E. apply orb_false_iff in E. destruct E as [E _].
  destruct (Ascii.ascii_dec c a) as [->|]; [rewrite Ascii.eqb_refl in E; discriminate|reflexivity].
Qed.

(** ** Types *)
Lemma type_facts t w : In (t, w) permas_types -> exists n,
  dget t meshio_to_permas_type = Some n /\ String.prefix "COOR" (permas_keyword ("$ELEMENT TYPE=" ++ n)) = false /\
  String.prefix "ELEMENT" (permas_keyword ("$ELEMENT TYPE=" ++ n)) = true /\
  String.prefix "$" ("$ELEMENT TYPE=" ++ n) = true /\ String.prefix "!" ("$ELEMENT TYPE=" ++ n) = false /\
  permas_element (permas_keyword ("$ELEMENT TYPE=" ++ n)) = Ok t /\ (exists d, cellblock_dim t = Ok d) /\ 0 < w /\
  match dget t permas_orders with Some o => Forall (fun i => i < w) o /\ length o = w /\ forall c, Flac3d.select o c = file_order t c | None => forall c, file_order t c = c end.
Proof.
  intros H. cbn in H. repeat (destruct H as [H|H]; [injection H as <- <-; eexists;
    split; [reflexivity|]; do 5 (split; [vm_compute; reflexivity|]); split; [eexists; vm_compute; reflexivity|]; split; [lia|]; cbn [dget permas_orders String.eqb Ascii.eqb Bool.eqb]|]); [..|destruct H].
  all: first [intros; reflexivity|split; [repeat constructor; lia|split; reflexivity]].
Qed.

Section File.
Context {fl : floats}.
Hypothesis fok : floats_ok fl.

(** ** Points *)
Definition stops_nodes (ls : list string) : Prop := exists l ls', ls = l :: ls' /\ String.prefix "!" l || String.prefix "$" l = true.
Lemma nodes_back (kps : list (nat * list fl)) : Forall (fun kp => length (snd kp) = 2 \/ length (snd kp) = 3) kps ->
  exists ls, mapM permas_point_line kps = Ok ls /\
  forall rest, stops_nodes rest ->
  read_permas_nodes (ls ++ rest) = Ok (map (fun kp => (Z.of_nat (S (fst kp)), in_space (snd kp))) kps, rest).
Proof.
  induction 1 as [|[k p] kps Hp _ (ls & E & R)].
  - exists []. split; [reflexivity|]. intros rest (l & ls' & -> & H). cbn [app read_permas_nodes map]. now rewrite H.
  - assert (exists x y z, in_space p = [x; y; z] /\ permas_point_line (k, p) = Ok (row_line (str_of_nat (S k) :: map ffmt [x; y; z]))) as (x & y & z & Es & Ep).
    { cbn [snd] in Hp. unfold in_space, permas_point_line. cbn [fst snd].
      destruct Hp as [Hp|Hp]; repeat (destruct p as [|? p]; cbn [length] in Hp; try discriminate);
        eexists _, _, _; (split; [cbn [length Nat.eqb app]; reflexivity|reflexivity]). }
    exists (row_line (str_of_nat (S k) :: map ffmt [x; y; z]) :: ls). cbn [mapM]. rewrite Ep. cbn [bind]. rewrite E. cbn [bind]. split; [reflexivity|].
    intros rest Hr. cbn [app]. specialize (R rest Hr). remember (ls ++ rest) as rr eqn:Err. clear Err. cbn [read_permas_nodes].
    assert (W : forallb word (str_of_nat (S k) :: map ffmt [x; y; z]) = true) by (cbn [forallb]; rewrite word_str_of_nat; apply words_floats, fok).
    assert (N : forall c, is_digit c = false -> c <> "-"%char -> String.prefix (String c "") (row_line (str_of_nat (S k) :: map ffmt [x; y; z])) = false)
      by (intros; unfold row_line; cbn [map]; rewrite join_cons; now apply head_not).
    rewrite !N by (try reflexivity; discriminate). cbn [orb]. rewrite strip_row by exact W. rewrite split_row by (try exact W; discriminate).
    cbn [hd tl]. rewrite str_of_nat_Z, parse_Z_str_of_Z. cbn [of_option bind]. rewrite parse_floats_ok by exact fok. cbn [bind].
    rewrite R. cbn [bind fst snd map]. now rewrite Es.
Qed.

(** ** Cells *)
Lemma gids_all n c : Forall (fun i => (0 <= i < Z.of_nat n)%Z) c ->
  exists ks, mapM (fun i => of_option KeyError (zget i (id_map (map (fun k => Z.of_nat (S k)) (seq 0 n))))) (map (fun i => (i + 1)%Z) c) = Ok ks
    /\ map Z.of_nat ks = c.
Proof.
  induction 1 as [|i c Hi _ (ks & E & M)]; [now exists []|]. exists (Z.to_nat i :: ks). cbn [map mapM].
  rewrite (id_map_get _ (Z.to_nat i)).
  - cbn [of_option bind]. rewrite E. cbn [bind map]. split; [reflexivity|]. f_equal; [lia|exact M].
  - apply FinFun.Injective_map_NoDup; [intros a b; lia|apply seq_NoDup].
  - rewrite nth_error_map, (nth_error_nth' _ 0) by (rewrite seq_length; lia). rewrite seq_nth by lia. cbn. f_equal. lia.
Qed.

Definition stops_rows (ls : list string) : Prop := exists l ls', ls = l :: ls' /\ String.prefix "$" l = true.
Definition loops n (ps : list (Z * list fl)) bs ls r := forall fuel, length ls <= fuel + n -> permas_loop fuel (Some ps) bs ls = r.

Lemma row_step n w t e c : In (t, w) permas_types -> length c = w -> Forall (fun i => (0 <= i < Z.of_nat n)%Z) c ->
  exists line, permas_cell_line t (e, c) = Ok line /\
  forall ls, read_permas_rows (id_map (map (fun k => Z.of_nat (S k)) (seq 0 n))) [] (line :: ls)
    = do r <- read_permas_rows (id_map (map (fun k => Z.of_nat (S k)) (seq 0 n))) [] ls; Ok (file_order t c :: fst r, snd r).
Proof.
  intros Ht Hw Hc. destruct (type_facts _ _ Ht) as (m & _ & _ & _ & _ & _ & _ & _ & Hpos & Ho). unfold permas_cell_line. cbn [fst snd].
  assert (Hrow : exists row, match dget t permas_orders with Some o => of_option IndexError (permute o c) | None => Ok c end = Ok row /\ row = file_order t c /\ row <> []
    /\ Forall (fun i => (0 <= i < Z.of_nat n)%Z) row).
  { destruct (dget t permas_orders) as [o|].
    - destruct Ho as (H1 & H2 & H3). rewrite <- Hw in H1. rewrite (permute_select _ _ H1). cbn [of_option]. eexists. split; [reflexivity|]. split; [apply H3|]. split.
      + intros E. apply (f_equal (@length Z)) in E. unfold Flac3d.select in E. rewrite map_length in E. cbn in E. lia.
      + now apply select_valid.
    - eexists. split; [reflexivity|]. rewrite Ho. repeat split; auto. intros ->. cbn in Hw. lia. }
  destruct Hrow as (row & -> & Er & Hne & Hv). cbn [bind]. eexists. split; [reflexivity|]. intros ls. rewrite <- Er. clear Er.
  set (ws := str_of_nat e :: map (fun i => str_of_Z (i + 1)) row).
  assert (W2 : forallb word (map (fun i => str_of_Z (i + 1)) row) = true) by (rewrite <- (map_map (fun i => (i + 1)%Z) str_of_Z); apply words_ints).
  assert (W : forallb word ws = true) by (unfold ws; cbn [forallb]; now rewrite word_str_of_nat).
  assert (El : (str_of_nat e ++ " " ++ row_line (map (fun i => str_of_Z (i + 1)) row))%string = row_line ws) by (unfold row_line, ws; destruct row; [congruence|reflexivity]).
  cbn [read_permas_rows]. rewrite head_not by (try reflexivity; discriminate). rewrite El, strip_row by exact W. rewrite split_row by (try exact W; discriminate).
  rewrite ends_bang_not.
  2:{ unfold row_line. apply char_in_join; [discriminate|]. unfold ws. constructor; [apply char_in_nat; [reflexivity|discriminate]|].
      apply Forall_map, Forall_forall. intros i _. apply char_in_str_of_Z; [reflexivity|discriminate]. }
  unfold ws. cbn [tl]. rewrite words_nonempty by exact W2. rewrite <- (map_map (fun i => (i + 1)%Z) str_of_Z), parse_ints_ok. cbn [bind].
  destruct (gids_all n row Hv) as (ks & -> & Ek). cbn [bind app]. now rewrite Ek.
Qed.

Lemma rows_back n w t : In (t, w) permas_types -> forall rows,
  Forall (fun c => length c = w /\ Forall (fun i => (0 <= i < Z.of_nat n)%Z) c) rows -> forall e,
  exists ls, mapM (permas_cell_line t) (combine (seq e (length rows)) rows) = Ok ls /\
  forall rest rest', (rest = rest' \/ rest = "!"%string :: rest') -> stops_rows rest' ->
  read_permas_rows (id_map (map (fun k => Z.of_nat (S k)) (seq 0 n))) [] (ls ++ rest) = Ok (map (file_order t) rows, rest').
Proof.
  intros Ht rows H. induction H as [|c rows [Hw Hc] _ IH]; intros e.
  - exists []. split; [reflexivity|]. intros rest rest' Hr (l & ls & -> & Hl). cbn [app map].
    assert (E : read_permas_rows (id_map (map (fun k => Z.of_nat (S k)) (seq 0 n))) [] (l :: ls) = Ok ([], l :: ls)) by (cbn [read_permas_rows]; now rewrite Hl).
    destruct Hr as [-> | ->]; [exact E|]. exact E.
  - destruct (IH (S e)) as (ls & E & R). destruct (row_step n w t e c Ht Hw Hc) as (line & El & Rl).
    exists (line :: ls). cbn [length seq combine mapM]. rewrite El. cbn [bind]. rewrite E. split; [reflexivity|].
    intros rest rest' Hr Hs. cbn [app]. rewrite Rl, (R rest rest' Hr Hs). reflexivity.
Qed.

Definition footer : list string := ["$END STRUCTURE"; "$EXIT COMPONENT"; "$FIN"]%string.
Lemma blocks_back (pts : list (list fl)) bs : Forall (permas_block (length pts)) bs ->
  let ps := map (fun kp => (Z.of_nat (S (fst kp)), in_space (snd kp))) (enumerate pts) in
  forall e, exists ls, permas_blocks e bs = Ok ls /\
    (ls = [] \/ exists l ls', ls = "!"%string :: l :: ls' /\ String.prefix "$" l = true) /\
    forall acc, loops 0 ps acc (tl ls ++ footer) (Ok (PermasMesh (map snd ps) (acc ++ map in_file bs))) /\
      loops 0 ps acc (ls ++ footer) (Ok (PermasMesh (map snd ps) (acc ++ map in_file bs))).
Proof.
  intros H ps. assert (Eids : map fst ps = map (fun k => Z.of_nat (S k)) (seq 0 (length pts))).
  { unfold ps. rewrite map_map. cbn [fst]. rewrite <- (map_map fst (fun k => Z.of_nat (S k))). unfold enumerate. now rewrite map_fst_combine by (now rewrite seq_length). }
  induction H as [|b bs Hb _ IH]; intros e.
  - exists []. split; [reflexivity|]. split; [auto|]. intros acc. cbn [map tl app]. rewrite app_nil_r.
    assert (L : loops 0 ps acc footer (Ok (PermasMesh (map snd ps) acc))).
    { intros fuel L. do 3 (destruct fuel as [|fuel]; [cbn in L; lia|]). destruct fuel; reflexivity. }
    split; exact L.
  - destruct Hb as (w & Ht & Hr). destruct (type_facts _ _ Ht) as (n & En & K1 & K2 & K3 & K4 & K5 & (dm & K6) & _).
    destruct (rows_back _ _ _ Ht _ Hr (S e)) as (rows & Er & Rr). destruct (IH (e + blen b)) as (ls & El & Hsh & Rl).
    cbn [permas_blocks]. rewrite En. cbn [of_option bind]. unfold blen at 1. rewrite Er. cbn [bind]. rewrite El. cbn [bind].
    eexists. split; [reflexivity|]. split; [right; cbn [app]; eauto|]. intros acc. cbn [app tl].
    assert (L : loops 0 ps acc (("$ELEMENT TYPE=" ++ n)%string :: (rows ++ ls) ++ footer) (Ok (PermasMesh (map snd ps) (acc ++ map in_file (b :: bs))))).
    { intros [|fuel] L; [cbn in L; lia|]. cbn [permas_loop]. rewrite K1, K2, K4, K5. cbn [bind]. rewrite Eids. rewrite <- app_assoc.
      assert (exists rest', (ls ++ footer = rest' \/ ls ++ footer = "!"%string :: rest') /\ stops_rows rest' /\
        forall acc, loops 0 ps acc rest' (Ok (PermasMesh (map snd ps) (acc ++ map in_file bs)))) as (rest' & Q1 & Q2 & Q3).
      { destruct Hsh as [-> | (l & ls' & -> & Hl)].
        - exists footer. split; [now left|]. split; [now eexists _, _|]. intros a. apply Rl.
        - exists ((l :: ls') ++ footer). split; [now right|]. split; [now eexists _, _|]. intros a. apply Rl. }
      unfold stops_rows in Q2. rewrite (Rr _ _ Q1 Q2). rewrite K6. cbn [bind fst snd]. rewrite Q3.
      - f_equal. f_equal. rewrite <- app_assoc. reflexivity.
      - rewrite <- app_assoc in L. cbn [length] in L. rewrite app_length in L. destruct Q1 as [Q1|Q1]; rewrite Q1 in L; cbn [length] in L; lia. }
    split; [exact L|]. intros [|fuel] L2; [cbn in L2; lia|]. cbn [permas_loop]. change (String.prefix "!" "!") with true. cbv iota. apply L. cbn [length] in *. lia.
Qed.

Lemma loop_comment fuel ps bs l ls : String.prefix "!" l = true -> @permas_loop fl (S fuel) ps bs (l :: ls) = permas_loop fuel ps bs ls.
Proof. intros H. cbn [permas_loop]. now rewrite H. Qed.
Lemma permas_roundtrip v (m : permas_mesh fl) :
  Forall (fun p => length p = 2 \/ length p = 3) (pm_points m) -> Forall (permas_block (length (pm_points m))) (pm_cells m) ->
  exists file, write_permas v m = Ok file /\
    read_permas file = Ok (PermasMesh (map in_space (pm_points m)) (map in_file (pm_cells m))).
Proof.
  intros Hp Hb. destruct m as [pts bs]. cbn [pm_points pm_cells] in *. unfold write_permas. cbn [pm_points pm_cells].
  destruct (nodes_back (enumerate pts)) as (pl & Ep & Rp).
  { unfold enumerate. apply Forall_forall. intros [k p] Hin. apply in_combine_r in Hin. rewrite Forall_forall in Hp. now apply Hp. }
  rewrite Ep. cbn [bind]. destruct (blocks_back pts bs Hb 0) as (bl & Eb & Hsh & Rb). rewrite Eb. cbn [bind].
  eexists. split; [reflexivity|]. unfold read_permas. fold footer.
  assert (Hw : String.prefix "!" ("!written by meshio v" ++ v) = true) by apply prefix_head.
  remember ("!written by meshio v" ++ v)%string as vl eqn:Ev. clear Ev. cbn [app length].
  set (LL := length (pl ++ bl ++ footer)) in *.
  rewrite loop_comment by reflexivity. rewrite loop_comment by exact Hw.
  change (permas_loop (S (S (S LL))) None [] ("$ENTER COMPONENT NAME=DFLT_COMP" :: "$STRUCTURE" :: "$COOR" :: pl ++ bl ++ footer)%string)
    with (do r <- read_permas_nodes (pl ++ bl ++ footer); @permas_loop fl LL (Some (fst r)) [] (snd r)).
  rewrite Rp.
  - cbn [bind fst snd]. destruct (Rb []) as [_ Rb2]. rewrite Rb2 by (unfold LL; rewrite (app_length pl); lia). cbn [app]. f_equal. f_equal. rewrite map_map. cbn [snd].
    rewrite <- (map_map snd in_space). unfold enumerate. now rewrite map_snd_combine by (now rewrite seq_length).
  - destruct Hsh as [-> | (l & ls' & -> & _)]; cbn [app]; now eexists _, _.
Qed.
End File.
