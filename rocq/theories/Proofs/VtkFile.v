(** Proofs about whole legacy VTK files (C67, C68). *)
From Coq Require Import ZArith NArith List String Ascii Bool Lia.
From Verif.Lib Require Import Base Facts Facts2 Runs Text TextFacts Lines LinesFacts Bytes BytesFacts File.
From Verif.Model Require Import Core Helpers Vtk Port Numpy VtkFile.
From Verif.Model Require Abaqus.
From Verif.Spec Require Import Core Blocks Vtk VtkFile.
From Verif.Proofs Require Import Blocks RunsBlocks CoreMisc Vtk Vtk51 Numpy Port VtkPort Gmsh22File.
Import ListNotations.
Import Model.VtkFile Spec.VtkFile.

Lemma parse_count n : parse_Z (str_of_nat n) = Some (Z.of_nat n).
Proof. rewrite str_of_nat_Z. apply parse_Z_str_of_Z. Qed.

Lemma known_name v51 dt : In dt (known v51) ->
  exists vt, dget dt (dtype_names v51) = Some vt /\ dtype_of v51 (lower vt) = Ok dt /\ word vt = true /\
    dmem dt dtype_widths = true.
Proof.
  intros H. destruct v51; cbn [known known_42 known_51 In] in H;
  repeat (destruct H as [<-|H]; [eexists; split; [reflexivity|]; split; [reflexivity|]; split; reflexivity|]); destruct H.
Qed.

(** ** Cells *)
Lemma vperm_Forall (P : Z -> Prop) tc : cell_ok tc -> Forall P (snd tc) -> Forall P (vperm (fst tc) (snd tc)).
Proof.
  intros Hok H. unfold vperm, meshio_to_vtk_order. destruct (String.eqb_spec (fst tc) "wedge") as [E|_]; [|exact H].
  pose proof (cell_ok_wedge _ Hok E) as H6. destruct (snd tc) as [|a [|b [|c [|d [|e [|f [|]]]]]]]; try discriminate.
  cbn. inversion H as [|? ? Ha H1]; subst. inversion H1 as [|? ? Hb H2]; subst. inversion H2 as [|? ? Hc H3]; subst.
  inversion H3 as [|? ? Hd H4]; subst. inversion H4 as [|? ? He H5]; subst. inversion H5 as [|? ? Hf _]; subst.
  repeat (constructor; [assumption|]). constructor.
Qed.
Lemma code_fits tc : cell_ok tc -> index_fits 4 (code_of tc).
Proof.
  intros H. apply cell_ok_code, dget_In in H. fold (code_of tc) in H. revert H. generalize (code_of tc), (fst tc). intros z t H.
  unfold meshio_to_vtk_type in H. apply in_map_iff in H. destruct H as ((c & t') & E & H). cbn in E. injection E as <- <-.
  unfold index_fits. change (- 2 ^ (8 * Z.of_nat 4 - 1))%Z with (-2147483648)%Z. change (2 ^ (8 * Z.of_nat 4 - 1))%Z with 2147483648%Z.
  unfold vtk_to_meshio_type in H. cbn [In] in H.
  repeat (destruct H as [H|H]; [injection H as <- _; lia|]). destruct H.
Qed.
Lemma all_cells_Forall (P : string * cell -> Prop) bs :
  Forall (fun b => Forall (fun c => P (btype b, c)) (bdata b)) bs -> Forall P (all_cells bs).
Proof.
  induction 1 as [|b bs Hb H IH]; [constructor|]. rewrite all_cells_cons. apply Forall_app. split; [|exact IH].
  apply Forall_map. exact Hb.
Qed.
Lemma Forall_flat_map {A B} (P : B -> Prop) (f : A -> list B) l : Forall (fun x => Forall P (f x)) l -> Forall P (flat_map f l).
Proof. induction 1; cbn; [constructor|]. apply Forall_app. auto. Qed.
Lemma total_cells_length bs : total_cells bs = length (all_cells bs).
Proof. unfold total_cells. now rewrite all_cells_length. Qed.
Lemma total_size_length bs : Forall rectangular bs -> total_size bs = length (concat (map snd (all_cells bs))).
Proof.
  unfold total_size. induction 1 as [|b bs (n & Hn) H IH]; [reflexivity|].
  cbn [map sum_nat]. rewrite IH, all_cells_cons, map_app, concat_app, app_length. f_equal.
  rewrite map_map. cbn [snd]. rewrite map_id. unfold rows_have in Hn. rewrite (concat_rect_length _ n Hn). unfold blen.
  destruct (bdata b) as [|r rs] eqn:E; [reflexivity|].
  rewrite (rows_have_width n b); [reflexivity|unfold rows_have; now rewrite E|rewrite E; discriminate].
Qed.
Lemma flat_enc_length L : Forall cell_ok L -> length (flat_map Vtk51.enc L) = length (concat (map snd L)).
Proof.
  induction 1 as [|tc L Htc H IH]; [reflexivity|]. cbn [flat_map map concat]. rewrite !app_length, IH. f_equal.
  unfold Vtk51.enc. now apply vperm_length.
Qed.
Lemma flat_enc42_length L : Forall cell_ok L -> length (flat_map enc42 L) = length (concat (map snd L)) + length L.
Proof.
  induction 1 as [|tc L Htc H IH]; [reflexivity|]. cbn [flat_map map concat length]. rewrite !app_length, IH.
  unfold enc42. cbn [length]. rewrite vperm_length by auto. lia.
Qed.
Lemma ends_bound k L B : (0 <= k)%Z -> (k + Z.of_nat (length (concat (map snd L))) <= B)%Z ->
  Forall (fun z => (0 <= z <= B)%Z) (ends k L).
Proof.
  revert k; induction L as [|tc L IH]; intros k Hk H; [constructor|]. cbn [ends]. cbn [map concat] in H. rewrite app_length in H.
  unfold len_of in *. constructor; [lia|]. apply IH; lia.
Qed.

(** ** Rows *)
Section Rows.
Context {V : Type} (nk : nums V).
(** An array whose columns of width 1 have lost their second dimension *)
Definition flat1 (a : varr V) : varr V :=
  VArr (va_dtype a) (match va_tail a with [1] => [] | t => t end) (va_rows a).
Lemma in_3d_pad r : length r = 2 -> in_3d nk r = pad_row nk r.
Proof. destruct r as [|a [|b [|]]]; try discriminate. reflexivity. Qed.
Lemma in_3d_same r : length r = 3 -> in_3d nk r = r.
Proof. destruct r as [|a [|b [|c [|]]]]; try discriminate. reflexivity. Qed.
Lemma pad_points_ok pts : Forall (fun q => length q = 2) pts \/ Forall (fun q => length q = 3) pts ->
  pad_points nk pts = map (in_3d nk) pts /\ Forall (fun q => length q = 3) (map (in_3d nk) pts).
Proof.
  intros [H|H].
  - assert (E : map (in_3d nk) pts = map (pad_row nk) pts).
    { apply map_ext_in. intros r Hr. rewrite Forall_forall in H. now apply in_3d_pad, H. }
    rewrite E. split.
    + destruct pts as [|q pts]; [reflexivity|]. inversion H as [|? ? Hq _]; subst. destruct q as [|a [|b [|]]]; try discriminate. reflexivity.
    + apply Forall_map. eapply Forall_impl; [|exact H]. intros r Hr. unfold pad_row. rewrite app_length, Hr. reflexivity.
  - assert (E : map (in_3d nk) pts = pts).
    { rewrite <- (map_id pts) at 2. apply map_ext_in. intros r Hr. rewrite Forall_forall in H. now apply in_3d_same, H. }
    rewrite E. split; [|exact H].
    destruct pts as [|q pts]; [reflexivity|]. inversion H as [|? ? Hq _]; subst. destruct q as [|a [|b [|c [|]]]]; try discriminate. reflexivity.
Qed.
Lemma vtk_array_pad a : Forall (fun r => length r = fold_right Nat.mul 1 (va_tail a)) (va_rows a) ->
  vtk_array nk a = flat1 (pad_arr nk a).
Proof.
  intros H. unfold vtk_array, flat1, pad_arr, vtk_tail, vtk_row, is_2d. destruct a as [dt tail rows]. cbn [va_dtype va_tail va_rows] in *.
  destruct tail as [|[|[|[|k]]] [|l tail]]; cbn [va_dtype va_tail va_rows]; rewrite ?map_id; try reflexivity.
  f_equal. apply map_ext_in. intros r Hr. rewrite Forall_forall in H. apply in_3d_pad. now apply H.
Qed.
End Rows.

(** ** Sections *)
Section File.
Context {V : Type} (nk : nums V) (p : vport V) (fits : string -> V -> Prop) (good hard : list (vunt p) -> Prop).
Hypothesis Hp : vport_ok p fits good hard.
Variable v51 : bool.
Notation loop := (read_loop nk p v51).

Definition leads (s : list (vunt p)) (i : vinfo V) (s' : list (vunt p)) (i' : vinfo V) : Prop :=
  forall fuel, length s < fuel -> exists fuel', length s' < fuel' /\ loop fuel i s = loop fuel' i' s'.
Lemma leads_refl s i : leads s i s i.
Proof. intros fuel H. exists fuel. auto. Qed.
Lemma leads_trans s1 i1 s2 i2 s3 i3 : leads s1 i1 s2 i2 -> leads s2 i2 s3 i3 -> leads s1 i1 s3 i3.
Proof.
  intros A B fuel H. destruct (A fuel H) as (f2 & H2 & E2). destruct (B f2 H2) as (f3 & H3 & E3). exists f3. split; [auto|]. congruence.
Qed.
Lemma good_blanks k s : good s -> good (blanks p k ++ s).
Proof.
  intros H. unfold blanks. induction k as [|k IH]; [exact H|]. cbn [repeat concat]. rewrite <- app_assoc. apply (l_line_good _ _ _ _ Hp); [reflexivity|exact IH].
Qed.
Lemma leads_blanks k s i : good s -> leads (blanks p k ++ s) i s i.
Proof.
  intros H. induction k as [|k IH]; [apply leads_refl|].
  change (blanks p (S k) ++ s) with ((v_line p "" ++ blanks p k) ++ s). rewrite <- app_assoc.
  eapply leads_trans; [|exact IH]. intros fuel Hf. destruct fuel as [|fuel]; [lia|]. exists fuel. split.
  - pose proof (l_line_pos _ _ _ _ Hp "" (blanks p k ++ s)). lia.
  - cbn [read_loop]. rewrite (l_next _ _ _ _ Hp) by (auto using good_blanks; reflexivity). reflexivity.
Qed.

(** The line that opens a section *)
Lemma leads_section ts h tl i rest i' rest' :
  ts = h :: tl -> forallb word ts = true -> good rest -> smem (Abaqus.upper h) vtk_sections = true ->
  read_section p v51 i (Abaqus.upper h) ts rest = Ok (i', rest') -> length rest' <= length rest ->
  leads (v_line p (row_line ts) ++ rest) i rest' i'.
Proof.
  intros -> Hw Hg Hs E Hl fuel Hf. destruct fuel as [|fuel]; [lia|]. exists fuel. split.
  - pose proof (l_line_pos _ _ _ _ Hp (row_line (h :: tl)) rest). lia.
  - cbn [read_loop]. rewrite (l_next _ _ _ _ Hp) by (auto using one_line_row). unfold row_line.
    rewrite split_ws_join by auto. cbn zeta. rewrite Hs, E. reflexivity.
Qed.
Lemma leads_subsection ts h tl i rest i' rest' :
  ts = h :: tl -> forallb word ts = true -> good rest -> smem (Abaqus.upper h) vtk_sections = false ->
  read_subsection nk p v51 i (Abaqus.upper h) ts rest = Ok (i', rest') -> length rest' <= length rest ->
  leads (v_line p (row_line ts) ++ rest) i rest' i'.
Proof.
  intros -> Hw Hg Hs E Hl fuel Hf. destruct fuel as [|fuel]; [lia|]. exists fuel. split.
  - pose proof (l_line_pos _ _ _ _ Hp (row_line (h :: tl)) rest). lia.
  - cbn [read_loop]. rewrite (l_next _ _ _ _ Hp) by (auto using one_line_row). unfold row_line.
    rewrite split_ws_join by auto. cbn zeta. rewrite Hs, E. reflexivity.
Qed.

(** A part of the file that takes the reader from one state to another *)
Definition sect (w : list (vunt p)) (i i' : vinfo V) : Prop :=
  forall s, good s -> hard s -> good (w ++ s) /\ hard (w ++ s) /\ leads (w ++ s) i s i'.
Lemma sect_nil i : sect [] i i.
Proof. intros s Hg Hh. cbn. auto using leads_refl. Qed.
Lemma sect_app w1 w2 i1 i2 i3 : sect w1 i1 i2 -> sect w2 i2 i3 -> sect (w1 ++ w2) i1 i3.
Proof.
  intros A B s Hg Hh. destruct (B s Hg Hh) as (G & H & L). destruct (A _ G H) as (G' & H' & L').
  rewrite <- app_assoc. split; [auto|]. split; [auto|]. eapply leads_trans; eauto.
Qed.
Lemma line_good ts s : forallb word ts = true -> good s -> good (v_line p (row_line ts) ++ s).
Proof. intros H Hg. apply (l_line_good _ _ _ _ Hp); [now apply one_line_row|exact Hg]. Qed.
Lemma line_hard ts s : forallb word ts = true -> ts <> [] -> hard (v_line p (row_line ts) ++ s).
Proof. intros H Hne. apply (l_line_hard _ _ _ _ Hp). now apply blank_row. Qed.

(** *** DATASET *)
Lemma dataset_sect act it ty di nu pts co off tys pd cr fd :
  sect (v_line p "DATASET UNSTRUCTURED_GRID") (VInfo act it ty di nu pts co off tys pd cr fd)
    (VInfo "DATASET" it (Some "UNSTRUCTURED_GRID") di nu pts co off tys pd cr fd).
Proof.
  intros s Hg Hh. change "DATASET UNSTRUCTURED_GRID"%string with (row_line ["DATASET"; "UNSTRUCTURED_GRID"]).
  split; [now apply line_good|]. split; [now apply line_hard|].
  eapply (leads_section _ _ _ _ s _ s); [reflexivity|reflexivity|exact Hg|reflexivity|reflexivity|lia].
Qed.

(** *** POINTS *)
Lemma points_sect dt pts act it ty di nu pts0 co off tys pd cr fd :
  In dt (known v51) -> Forall (fun q => length q = 3) pts -> Forall (Forall (fits dt)) pts ->
  exists w, write_points p v51 dt pts = Ok w /\
    sect w (VInfo act it ty di nu pts0 co off tys pd cr fd) (VInfo "POINTS" it ty di nu (Some (dt, pts)) co off tys pd cr fd).
Proof.
  intros Hd H3 Hf. destruct (known_name _ _ Hd) as (vt & Ev & Ed & Hw & Hm). unfold write_points. rewrite Ev. cbn [of_option bind].
  eexists. split; [reflexivity|]. intros s Hg Hh.
  assert (W : forallb word ["POINTS"; str_of_nat (length pts); vt] = true) by (cbn [forallb]; now rewrite word_str_of_nat, Hw).
  assert (Fc : Forall (fits dt) (concat pts)).
  { clear - Hf. induction Hf; cbn; [constructor|]. apply Forall_app. auto. }
  assert (Gp : good (v_put p dt (concat pts) ++ s)) by (now apply (l_put_good _ _ _ _ Hp)).
  rewrite <- app_assoc. split; [now apply line_good|]. split; [apply line_hard; [exact W|discriminate]|].
  destruct (l_get _ _ _ _ Hp dt (concat pts) s Hm Fc Hg Hh) as (k & _ & Lk & Ek).
  eapply leads_trans; [|apply (leads_blanks k s); exact Hg].
  eapply leads_section; [reflexivity|exact W|exact Gp|reflexivity| |exact Lk].
  change (Abaqus.upper "POINTS") with "POINTS"%string. unfold read_section.
  change (String.eqb "POINTS" "METADATA") with false. change (String.eqb "POINTS" "DATASET") with false.
  change (String.eqb "POINTS" "POINTS") with true. cbn iota.
  unfold tok_int, tok. cbn [nth_error of_option bind]. rewrite parse_count. cbn [of_option bind]. rewrite Ed. cbn [bind].
  unfold read_points. rewrite Nat2Z.id. rewrite (concat_rect_length _ 3 H3) in Ek. rewrite Ek. cbn [bind fst snd].
  rewrite (concat_rect_length _ 3 H3), Nat.eqb_refl, rows_of_concat by auto. reflexivity.
Qed.

(** *** POINT_DATA, CELL_DATA *)
Definition field_ok (na : string * varr V) : Prop :=
  name_ok (fst na) /\ array_ok fits v51 (va_dtype (snd na)) (va_tail (snd na)) (va_rows (snd na)) /\ va_rows (snd na) <> [].

Lemma word_no_blank w : word w = true -> char_in " " w = false.
Proof.
  intros H. apply word_no_space in H. destruct H as [H _]. induction w as [|a w IH]; [reflexivity|]. cbn [no_space char_in] in *.
  apply andb_true_iff in H. destruct H as [Ha H]. rewrite IH by auto. rewrite orb_false_r.
  destruct (Ascii.eqb_spec " " a) as [<-|_]; [discriminate|reflexivity].
Qed.
Lemma fields_ok fs : Forall field_ok fs -> exists ls, mapM (write_field p v51) fs = Ok ls /\
  forall s, good s -> hard s -> good (concat ls ++ s) /\ hard (concat ls ++ s) /\ length s <= length (concat ls ++ s) /\
    forall acc, read_fields p v51 (length fs) acc (concat ls ++ s) = Ok (dupdate acc (map (fun na => (fst na, flat1 (snd na))) fs), s).
Proof.
  induction 1 as [|[name a] fs Hf H IH].
  { exists []. split; [reflexivity|]. intros s Hg Hh. cbn. auto. }
  destruct IH as (ls & Els & IH). destruct Hf as ((Hw & Hm) & (Hd & Ht & Hr) & Hne). cbn [fst snd] in *.
  destruct (known_name _ _ Hd) as (vt & Ev & Ed & Hwv & Hmd).
  cbn [mapM]. unfold write_field at 1. rewrite word_no_blank by auto. rewrite Ev. cbn [of_option bind]. rewrite Els. cbn [bind].
  eexists. split; [reflexivity|]. intros s Hg Hh. destruct (IH s Hg Hh) as (G & Hd' & L & R). clear IH.
  cbn [concat]. rewrite <- !app_assoc.
  set (dt := va_dtype a) in *. set (rows := va_rows a) in *.
  assert (Hk : exists k, components a = S k /\ fold_right Nat.mul 1 (va_tail a) = S k).
  { unfold components. destruct Ht as [-> | (k & ->)]; [exists 0; auto|]. exists k. cbn. split; lia. }
  destruct Hk as (k & Ek & Er). rewrite Er in Hr. rewrite Ek.
  assert (W : forallb word [name; str_of_nat (S k); str_of_nat (length rows); vt] = true)
    by (cbn [forallb]; now rewrite Hw, !word_str_of_nat, Hwv).
  assert (Fc : Forall (fits dt) (concat rows)).
  { clear - Hr. induction Hr as [|r rows [_ Hx] H IH]; cbn; [constructor|]. apply Forall_app. auto. }
  assert (Hlen : Forall (fun r => length r = S k) rows) by (eapply Forall_impl; [|exact Hr]; intros r [E _]; exact E).
  assert (Hcne : concat rows <> []).
  { destruct rows as [|r rs]; [congruence|]. inversion Hlen as [|? ? Hx _]; subst. destruct r; [discriminate|]. discriminate. }
  assert (Gp : good (v_put p dt (concat rows) ++ concat ls ++ s)) by (now apply (l_put_good _ _ _ _ Hp)).
  destruct (l_get _ _ _ _ Hp dt (concat rows) (concat ls ++ s) Hmd Fc G Hd') as (kk & K0 & Lk & Egt).
  rewrite (K0 Hcne) in *. change (blanks p 0 ++ concat ls ++ s) with (concat ls ++ s) in *.
  split; [now apply line_good|]. split; [apply line_hard; [exact W|discriminate]|]. split.
  { pose proof (l_line_pos _ _ _ _ Hp (row_line [name; str_of_nat (S k); str_of_nat (length rows); vt]) (v_put p dt (concat rows) ++ concat ls ++ s)). lia. }
  intros acc. cbn [length read_fields]. unfold next_line at 1. rewrite (l_next _ _ _ _ Hp) by (auto using one_line_row).
  unfold row_line. rewrite split_ws_join by auto. unfold tok at 1. cbn [nth_error of_option bind].
  replace (String.eqb name "METADATA") with false by (symmetry; now apply String.eqb_neq).
  unfold field_head. rewrite !parse_count. cbn [of_option bind]. rewrite Ed. cbn [bind]. rewrite !Nat2Z.id.
  rewrite (concat_rect_length _ (S k) Hlen) in Egt. rewrite (Nat.mul_comm (S k)). rewrite Egt. cbn [bind fst snd].
  assert (Ea : (if Nat.eqb (S k) 1 then Ok (VArr dt [] (map (fun x => [x]) (concat rows)))
                else if Nat.eqb (length (concat rows)) (length rows * S k) then Ok (VArr dt [S k] (rows_of (length rows) (S k) (concat rows)))
                     else Err ValueError) = Ok (flat1 a)).
  { rewrite (concat_rect_length _ (S k) Hlen), Nat.eqb_refl, rows_of_concat by auto. unfold flat1. fold dt rows.
    destruct Ht as [Et | (k' & Ek')].
    - rewrite Et in *. cbn in Er. injection Er as <-. cbn [Nat.eqb]. f_equal. f_equal.
      clear - Hlen. induction Hlen as [|r rows Hr H IH]; [reflexivity|]. destruct r as [|x [|]]; try discriminate. cbn [concat app map]. now rewrite IH.
    - rewrite Ek' in *. cbn in Er. replace k' with k by lia. destruct k as [|k]; [|reflexivity].
      cbn [Nat.eqb]. f_equal. f_equal.
      clear - Hlen. induction Hlen as [|r rows Hr H IH]; [reflexivity|]. destruct r as [|x [|]]; try discriminate. cbn [concat app map]. now rewrite IH. }
  rewrite Ea. cbn [bind]. rewrite R. reflexivity.
Qed.

Definition with_data (title : string) (n : nat) (d : dict (varr V)) (i : vinfo V) : vinfo V :=
  match d with
  | [] => i
  | _ => update_data (VInfo title (Some (Z.of_nat n)) (i_type i) (i_dims i) (i_nums i) (i_points i) (i_conn i) (i_offs i) (i_types i)
           (i_pdata i) (i_craw i) (i_fdata i)) (dupdate [] (map (fun na => (fst na, flat1 (snd na))) d))
  end.
Lemma data_sect title n d i t : (title = "POINT_DATA" \/ title = "CELL_DATA") ->
  In t ["UNSTRUCTURED_GRID"; "STRUCTURED_POINTS"; "STRUCTURED_GRID"; "RECTILINEAR_GRID"]%string -> i_type i = Some t ->
  Forall field_ok d -> exists w, write_data_section p v51 title n d = Ok w /\ sect w i (with_data title n d i).
Proof.
  intros Ht Hty Hi Hd. destruct d as [|na d]; [exists []; split; [reflexivity|apply sect_nil]|].
  cbn [write_data_section]. unfold write_fields. destruct (fields_ok _ Hd) as (ls & E & R). set (fs := na :: d) in *. rewrite E. cbn [bind].
  eexists. split; [reflexivity|]. intros s Hg Hh. destruct (R s Hg Hh) as (G & Hh' & L & Rd). clear R.
  rewrite <- !app_assoc.
  assert (W1 : forallb word [title; str_of_nat n] = true) by (cbn [forallb]; rewrite word_str_of_nat; destruct Ht as [-> | ->]; reflexivity).
  assert (W2 : forallb word ["FIELD"; "FieldData"; str_of_nat (length fs)] = true) by (cbn [forallb]; now rewrite word_str_of_nat).
  assert (G2 : good (v_line p (row_line ["FIELD"; "FieldData"; str_of_nat (length fs)]) ++ concat ls ++ s)) by now apply line_good.
  split; [now apply line_good|]. split; [apply line_hard; [exact W1|discriminate]|].
  eapply leads_trans.
  - eapply leads_section with (rest' := v_line p (row_line ["FIELD"; "FieldData"; str_of_nat (length fs)]) ++ concat ls ++ s);
      [reflexivity|exact W1|exact G2|destruct Ht as [-> | ->]; reflexivity| |lia].
    instantiate (1 := VInfo title (Some (Z.of_nat n)) (i_type i) (i_dims i) (i_nums i) (i_points i) (i_conn i) (i_offs i) (i_types i)
           (i_pdata i) (i_craw i) (i_fdata i)).
    destruct Ht as [-> | ->].
    + change (Abaqus.upper "POINT_DATA") with "POINT_DATA"%string. cbn -[parse_Z str_of_nat]. rewrite parse_count. reflexivity.
    + change (Abaqus.upper "CELL_DATA") with "CELL_DATA"%string. cbn -[parse_Z str_of_nat]. rewrite parse_count. reflexivity.
  - eapply leads_subsection; [reflexivity|exact W2|exact G|reflexivity| |exact L].
    change (Abaqus.upper "FIELD") with "FIELD"%string. unfold read_subsection. cbn [i_type]. rewrite Hi. cbn [of_option bind].
    assert (Hs : exists infos, dget t vtk_dataset_infos = Some infos /\ smem "FIELD" infos = false).
    { repeat (destruct Hty as [<-|Hty]; [eexists; split; reflexivity|]). destruct Hty. }
    destruct Hs as (infos & -> & Hs). cbn [of_option bind]. rewrite Hs.
    change (String.eqb "FIELD" "SCALARS") with false. change (String.eqb "FIELD" "VECTORS") with false.
    change (String.eqb "FIELD" "TENSORS") with false. change (String.eqb "FIELD" "FIELD") with true. cbn iota.
    unfold tok_int, tok. cbn [nth_error of_option bind]. rewrite parse_count. cbn [of_option bind]. rewrite Nat2Z.id.
    rewrite Rd. cbn [bind fst snd]. unfold with_data, fs. rewrite Hi. reflexivity.
Qed.

(** *** CELLS, CELL_TYPES *)
Lemma types_sect bs types L act it ty di nu pts co off tys pd cr fd :
  Forall cell_ok L -> concat types = map code_of L -> total_cells bs = length L ->
  sect (v_line p (row_line ["CELL_TYPES"; str_of_nat (total_cells bs)]) ++ v_put_ints p "int32" types)
    (VInfo act it ty di nu pts co off tys pd cr fd)
    (VInfo "CELL_TYPES" (Some (Z.of_nat (total_cells bs))) ty di nu pts co off (Some (map code_of L)) pd cr fd).
Proof.
  intros HL Et En s Hg Hh. rewrite <- !app_assoc.
  assert (W : forallb word ["CELL_TYPES"; str_of_nat (total_cells bs)] = true) by (cbn [forallb]; now rewrite word_str_of_nat).
  assert (G : good (v_put_ints p "int32" types ++ s)) by (now apply (l_put_ints_good _ _ _ _ Hp)).
  split; [now apply line_good|]. split; [apply line_hard; [exact W|discriminate]|].
  assert (F : Forall (index_fits 4) (concat types)).
  { rewrite Et. apply Forall_map. eapply Forall_impl; [|exact HL]. intros tc. apply code_fits. }
  destruct (l_get_types _ _ _ _ Hp types s F Hg Hh) as (k & Lk & Ek).
  eapply leads_trans; [|apply (leads_blanks k s); exact Hg].
  eapply leads_section; [reflexivity|exact W|exact G|reflexivity| |exact Lk].
  change (Abaqus.upper "CELL_TYPES") with "CELL_TYPES"%string. unfold read_section.
  change (String.eqb "CELL_TYPES" "METADATA") with false. change (String.eqb "CELL_TYPES" "DATASET") with false.
  change (String.eqb "CELL_TYPES" "POINTS") with false. change (String.eqb "CELL_TYPES" "CELLS") with false.
  change (String.eqb "CELL_TYPES" "CELL_TYPES") with true. cbn iota.
  unfold tok_int, tok. cbn [nth_error of_option bind]. rewrite parse_count. cbn [of_option bind]. rewrite Nat2Z.id.
  rewrite Et, map_length, <- En in Ek. rewrite Ek. reflexivity.
Qed.

Lemma cells_sect_42 bs act it ty di nu pts co off tys pd cr fd : v51 = false -> Forall block_ok bs ->
  Forall (fun b => Forall (Forall (index_fits 4)) (bdata b)) bs ->
  Forall (fun b => Forall (fun c => index_fits 4 (Z.of_nat (length c))) (bdata b)) bs ->
  exists w, write_cells_section_42 p bs = Ok w /\
    sect w (VInfo act it ty di nu pts co off tys pd cr fd)
      (VInfo "CELL_TYPES" (Some (Z.of_nat (total_cells bs))) ty di nu pts (Some (flat_map enc42 (all_cells bs))) off
         (Some (map code_of (all_cells bs))) pd cr fd).
Proof.
  intros Hv Hb Hi Hz. pose proof (blocks_ok_cells _ Hb) as HL. set (L := all_cells bs) in *.
  pose proof (write_cells_42_ok bs Hb) as Ew. unfold write_cells_42 in Ew. unfold write_cells_section_42.
  destruct (mapM write_block_42 bs) as [l|e] eqn:El; [|discriminate]. cbn [bind] in *. fold L in Ew. injection Ew as E1 E2.
  rewrite flat_map_concat_map in E1, E2.
  eexists. split; [reflexivity|]. rewrite (app_assoc (v_line p _) (v_put_ints p _ _)). eapply sect_app; [|apply types_sect; [exact HL|exact E2|apply total_cells_length]].
  intros s Hg Hh. rewrite <- !app_assoc.
  assert (W : forallb word ["CELLS"; str_of_nat (total_cells bs); str_of_nat (total_size bs + total_cells bs)] = true)
    by (cbn [forallb]; now rewrite !word_str_of_nat).
  assert (G : good (v_put_ints p "int32" (map fst l) ++ s)) by (now apply (l_put_ints_good _ _ _ _ Hp)).
  split; [now apply line_good|]. split; [apply line_hard; [exact W|discriminate]|].
  assert (F : Forall (index_fits 4) (concat (map fst l))).
  { rewrite E1. apply Forall_flat_map. rewrite Forall_forall. intros tc Hin. unfold enc42. constructor.
    - pose proof (all_cells_Forall (fun tc => index_fits 4 (Z.of_nat (length (snd tc)))) bs Hz) as A. rewrite Forall_forall in A. now apply A.
    - apply vperm_Forall; [rewrite Forall_forall in HL; auto|].
      pose proof (all_cells_Forall (fun tc => Forall (index_fits 4) (snd tc)) bs Hi) as A. rewrite Forall_forall in A. now apply A. }
  destruct (l_get_ints _ _ _ _ Hp "int32" (map fst l) s (or_introl eq_refl) F Hg Hh) as (k & _ & Lk & Ek).
  eapply leads_trans; [|apply (leads_blanks k s); exact Hg].
  eapply leads_section; [reflexivity|exact W|exact G|reflexivity| |exact Lk].
  change (Abaqus.upper "CELLS") with "CELLS"%string. unfold read_section.
  change (String.eqb "CELLS" "METADATA") with false. change (String.eqb "CELLS" "DATASET") with false.
  change (String.eqb "CELLS" "POINTS") with false. change (String.eqb "CELLS" "CELLS") with true. cbn iota.
  unfold read_cells_section. rewrite Hv. cbn iota.
  unfold tok_int, tok. cbn [nth_error of_option bind]. rewrite parse_count. cbn [of_option bind]. rewrite Nat2Z.id.
  assert (En : total_size bs + total_cells bs = length (concat (map fst l))).
  { rewrite E1, flat_enc42_length by auto. rewrite total_cells_length, total_size_length; [reflexivity|].
    eapply Forall_impl; [|exact Hb]. apply block_rect. }
  rewrite En. rewrite Ek. cbn [bind fst snd]. rewrite E1. reflexivity.
Qed.

Lemma cells_sect_51 bs act it ty di nu pts co off tys pd cr fd : v51 = true -> Forall block_ok bs -> Forall nonempty_block bs -> bs <> [] ->
  Forall (fun b => Forall (Forall (index_fits 8)) (bdata b)) bs ->
  index_fits 8 (Z.of_nat (length (concat (map snd (all_cells bs))))) ->
  exists w, write_cells_section_51 p bs = Ok w /\
    sect w (VInfo act it ty di nu pts co off tys pd cr fd)
      (VInfo "CELL_TYPES" (Some (Z.of_nat (total_cells bs))) ty di nu pts (Some (flat_map Vtk51.enc (all_cells bs)))
         (Some (ends 0 (all_cells bs))) (Some (map code_of (all_cells bs))) pd cr fd).
Proof.
  intros Hv Hb Hnb Hne Hi Ht. pose proof (blocks_ok_cells _ Hb) as HL. set (L := all_cells bs) in *.
  assert (Hr : Forall rectangular bs) by (eapply Forall_impl; [|exact Hb]; apply block_rect).
  pose proof (write_conn_ok bs Hb) as Ec. pose proof (write_types_ok bs Hb) as Ety.
  change (write_conn bs) with (do l <- conn_blocks bs; Ok (concat l)) in Ec. change (write_types bs) with (do l <- type_blocks bs; Ok (concat l)) in Ety.
  unfold write_cells_section_51, offsets_51. rewrite offsets_51_from_ok by auto. cbn [bind].
  destruct (conn_blocks bs) as [conn|] eqn:E1; [|discriminate]. destruct (type_blocks bs) as [types|] eqn:E2; [|discriminate].
  cbn [bind] in *. fold L in Ec, Ety |- *. injection Ec as Ec. injection Ety as Ety.
  eexists. split; [reflexivity|].
  match goal with |- sect (?a ++ ?b ++ ?c ++ ?d ++ ?e ++ ?f) _ _ =>
    replace (a ++ b ++ c ++ d ++ e ++ f) with ((a ++ b ++ c ++ d ++ e) ++ f) by (now rewrite <- !app_assoc) end.
  eapply sect_app; [|apply types_sect; [exact HL|exact Ety|apply total_cells_length]].
  intros s Hg Hh. rewrite <- !app_assoc.
  change "OFFSETS vtktypeint64"%string with (row_line ["OFFSETS"; "vtktypeint64"]).
  change "CONNECTIVITY vtktypeint64"%string with (row_line ["CONNECTIVITY"; "vtktypeint64"]).
  assert (W : forallb word ["CELLS"; str_of_nat (total_cells bs + 1); str_of_nat (total_size bs)] = true)
    by (cbn [forallb]; now rewrite !word_str_of_nat).
  assert (G1 : good (v_put_ints p "int64" conn ++ s)) by (now apply (l_put_ints_good _ _ _ _ Hp)).
  set (s2 := v_line p (row_line ["CONNECTIVITY"; "vtktypeint64"]) ++ v_put_ints p "int64" conn ++ s).
  assert (G2 : good s2) by (now apply line_good).
  assert (H2 : hard s2) by (apply line_hard; [reflexivity|discriminate]).
  assert (G3 : good (v_put_ints p "int64" [0%Z :: ends 0 L] ++ s2)) by (now apply (l_put_ints_good _ _ _ _ Hp)).
  assert (G4 : good (v_line p (row_line ["OFFSETS"; "vtktypeint64"]) ++ v_put_ints p "int64" [0%Z :: ends 0 L] ++ s2)) by (now apply line_good).
  split; [now apply line_good|]. split; [apply line_hard; [exact W|discriminate]|].
  assert (F1 : Forall (index_fits 8) (concat conn)).
  { rewrite Ec. apply Forall_flat_map. rewrite Forall_forall. intros tc Hin. apply vperm_Forall; [rewrite Forall_forall in HL; auto|].
    pose proof (all_cells_Forall (fun tc => Forall (index_fits 8) (snd tc)) bs Hi) as A. rewrite Forall_forall in A. now apply A. }
  assert (F2 : Forall (index_fits 8) (concat [0%Z :: ends 0 L])).
  { cbn [concat]. rewrite app_nil_r. constructor; [unfold index_fits; cbn; lia|].
    eapply Forall_impl; [|apply (ends_bound 0 L (Z.of_nat (length (concat (map snd L))))); lia]. intros z Hz.
    unfold index_fits in *. assert (0 < 2 ^ (8 * Z.of_nat 8 - 1))%Z by (apply Z.pow_pos_nonneg; lia). lia. }
  destruct (l_get_ints _ _ _ _ Hp "int64" conn s (or_intror eq_refl) F1 Hg Hh) as (k & _ & Lk & Ek).
  destruct (l_get_ints _ _ _ _ Hp "int64" [0%Z :: ends 0 L] s2 (or_intror eq_refl) F2 G2 H2) as (k2 & K0 & Lk2 & Ek2).
  assert (K2 : k2 = 0) by (apply K0; discriminate). subst k2. change (blanks p 0 ++ s2) with s2 in *.
  eapply leads_trans; [|apply (leads_blanks k s); exact Hg].
  eapply leads_section; [reflexivity|exact W|exact G4|reflexivity| |].
  - change (Abaqus.upper "CELLS") with "CELLS"%string. unfold read_section.
    change (String.eqb "CELLS" "METADATA") with false. change (String.eqb "CELLS" "DATASET") with false.
    change (String.eqb "CELLS" "POINTS") with false. change (String.eqb "CELLS" "CELLS") with true. cbn iota.
    unfold read_cells_section. rewrite Hv. cbn iota.
    unfold next_line at 1. rewrite (l_next _ _ _ _ Hp) by (auto; reflexivity).
    change (startswith (row_line ["OFFSETS"; "vtktypeint64"]) "OFFSETS") with true. cbn [negb]. cbn iota.
    unfold tok_int, tok. change (split_ws (row_line ["OFFSETS"; "vtktypeint64"])) with ["OFFSETS"; "vtktypeint64"]%string.
    cbn [nth_error of_option bind]. rewrite !parse_count. cbn [of_option bind]. rewrite !Nat2Z.id.
    change (dtype_of true "vtktypeint64") with (@Ok string "int64"). cbn [bind].
    assert (En : total_cells bs + 1 = length (concat [0%Z :: ends 0 L])).
    { cbn [concat]. rewrite app_nil_r. cbn [length]. rewrite ends_length, total_cells_length. fold L. lia. }
    rewrite En. rewrite Ek2. cbn [bind fst snd]. unfold next_line. unfold s2. rewrite (l_next _ _ _ _ Hp) by (auto; reflexivity).
    change (startswith (row_line ["CONNECTIVITY"; "vtktypeint64"]) "CONNECTIVITY") with true. cbn [negb]. cbn iota.
    change (split_ws (row_line ["CONNECTIVITY"; "vtktypeint64"])) with ["CONNECTIVITY"; "vtktypeint64"]%string.
    cbn [nth_error of_option bind]. change (dtype_of true "vtktypeint64") with (@Ok string "int64"). cbn [bind].
    assert (Ec2 : total_size bs = length (concat conn)).
    { rewrite Ec, flat_enc_length by auto. now apply total_size_length. }
    rewrite Ec2. rewrite Ek. cbn [bind fst snd]. cbn [concat]. rewrite app_nil_r.
    unfold check_offsets_51. cbn [Z.eqb negb]. rewrite Ec. rewrite ends_last, Z.eqb_refl by auto. cbn [negb bind]. reflexivity.
  - eapply Nat.le_trans; [exact Lk|]. pose proof (l_line_pos _ _ _ _ Hp (row_line ["CONNECTIVITY"; "vtktypeint64"]) (v_put_ints p "int64" conn ++ s)).
    fold s2 in H. pose proof (l_line_pos _ _ _ _ Hp (row_line ["OFFSETS"; "vtktypeint64"]) (v_put_ints p "int64" [0%Z :: ends 0 L] ++ s2)). lia.
Qed.

(** *** The whole file *)
Definition raw (c : vcd V) : varr V := VArr (vc_dtype c) (vc_tail c) (concat (vc_rows c)).
Lemma pad_array_ok (Hz : forall dt v, fits dt v -> fits dt (n_zero nk)) a :
  array_ok fits v51 (va_dtype a) (va_tail a) (va_rows a) ->
  array_ok fits v51 (va_dtype (pad_arr nk a)) (va_tail (pad_arr nk a)) (va_rows (pad_arr nk a)).
Proof.
  destruct a as [dt tail rows]. cbn [va_dtype va_tail va_rows]. intros (Hd & Ht & Hr). unfold pad_arr, is_2d. cbn [va_dtype va_tail va_rows].
  destruct tail as [|[|[|[|k]]] [|l tail]]; cbn [va_dtype va_tail va_rows]; try (split; [exact Hd|split; [exact Ht|exact Hr]]).
  split; [exact Hd|]. split; [right; now exists 2|]. apply Forall_map. eapply Forall_impl; [|exact Hr]. intros r [El Hf].
  unfold pad_row. rewrite app_length. cbn in El |- *. rewrite El. split; [reflexivity|]. apply Forall_app. split; [exact Hf|].
  constructor; [|constructor]. destruct Hf as [|v r Hv]; [discriminate|]. eauto.
Qed.
Lemma pad_rows_length a : length (va_rows (pad_arr nk a)) = length (va_rows a).
Proof. unfold pad_arr. destruct (is_2d (va_tail a)); [cbn [va_rows]; apply map_length|reflexivity]. Qed.
Lemma pad_field (Hz : forall dt v, fits dt v -> fits dt (n_zero nk)) name a :
  name_ok name -> array_ok fits v51 (va_dtype a) (va_tail a) (va_rows a) -> va_rows a <> [] ->
  field_ok (name, pad_arr nk a).
Proof.
  intros Hn Ha Hne. split; [exact Hn|]. split; [now apply pad_array_ok|]. cbn [snd]. intros E. apply Hne.
  apply length_zero_iff_nil. rewrite <- pad_rows_length, E. reflexivity.
Qed.
Lemma length_concat_sum {A} (l : list (list A)) : length (concat l) = sum_nat (map (@length A) l).
Proof. induction l as [|a l IH]; [reflexivity|]. cbn [concat map sum_nat]. rewrite app_length, IH. reflexivity. Qed.
Lemma keys_map {A B} (f : A -> B) (d : dict A) : dkeys (map (fun na => (fst na, f (snd na))) d) = dkeys d.
Proof. unfold dkeys. rewrite map_map. reflexivity. Qed.

Lemma file_sections m ver wc conn off types :
  vtk_mesh nk fits v51 m -> one_line ("written by meshio v" ++ ver)%string ->
  write_cells_section p v51 (vm_cells m) = Ok wc ->
  (forall act it ty di nu pts co off0 tys pd cr fd, sect wc (VInfo act it ty di nu pts co off0 tys pd cr fd)
     (VInfo "CELL_TYPES" (Some (Z.of_nat (total_cells (vm_cells m)))) ty di nu pts (Some conn) (if v51 then off else off0) (Some types) pd cr fd)) ->
  exists s, write_vtk nk p v51 ver m = Ok s /\
    read_vtk nk p s = (
      let pts := Some (vm_dtype m, map (in_3d nk) (vm_points m)) in
      let pd := map (fun na => (fst na, vtk_array nk (snd na))) (vm_pdata m) in
      let craw := map (fun nc => (fst nc, vtk_array nk (raw (snd nc)))) (vm_cdata m) in
      if v51 then
        do offs <- of_option TypeError off;
        do r <- vtk_cells_from_data conn offs types;
        build_mesh pts (fst r) pd (split_data (Some (snd r)) craw) []
      else
        do r <- translate_cells conn types;
        build_mesh pts (fst r) pd (split_data (snd r) craw) []).
Proof.
  intros H Hv Ew Hc. destruct (pad_points_ok nk (vm_points m) (proj1 (vk_points _ _ _ _ H))) as [Ep Hp3].
  assert (Hpf : Forall (Forall (fits (vm_dtype m))) (map (in_3d nk) (vm_points m))).
  { apply Forall_map. destruct (vk_points _ _ _ _ H) as [Hl Hf]. rewrite Forall_forall in *. intros q Hq. specialize (Hf q Hq).
    unfold in_3d. destruct q as [|a [|b [|c q]]]; auto. inversion Hf as [|? ? Ha Hr]; subst. inversion Hr as [|? ? Hb _]; subst.
    pose proof (vk_zero _ _ _ _ H _ _ Ha). now repeat (constructor; [assumption|]). }
  destruct (points_sect (vm_dtype m) (map (in_3d nk) (vm_points m)) "DATASET" None (Some "UNSTRUCTURED_GRID"%string) None [] None None None None [] [] []
              (vk_points_type _ _ _ _ H) Hp3 Hpf) as (wp & Ewp & Sp).
  set (i1 := VInfo "POINTS" None (Some "UNSTRUCTURED_GRID"%string) None [] (Some (vm_dtype m, map (in_3d nk) (vm_points m))) None None None [] [] []) in *.
  set (i2 := VInfo "CELL_TYPES" (Some (Z.of_nat (total_cells (vm_cells m)))) (Some "UNSTRUCTURED_GRID"%string) None [] (Some (vm_dtype m, map (in_3d nk) (vm_points m)))
               (Some conn) (if v51 then off else None) (Some types) [] [] []).
  assert (Sc : sect wc i1 i2) by apply Hc. clear Hc.
  set (pdf := map (fun na : string * varr V => (fst na, pad_arr nk (snd na))) (vm_pdata m)).
  assert (Fp : Forall field_ok pdf).
  { apply Forall_map. pose proof (vk_pnone _ _ _ _ H) as Hn. pose proof (vk_pdata _ _ _ _ H) as Hd. rewrite Forall_forall in *.
    intros [name a] Hin. destruct (Hd _ Hin) as (N1 & N2 & N3). cbn [fst snd] in *. apply pad_field; auto.
    - apply (vk_zero _ _ _ _ H).
    - intros E. rewrite E in N3. destruct (vm_points m); [|discriminate]. apply Hn; [|reflexivity]. intros E2. rewrite E2 in Hin. destruct Hin. }
  destruct (data_sect "POINT_DATA" (length (vm_points m)) pdf i2 _ (or_introl eq_refl) (or_introl eq_refl) eq_refl Fp) as (wpd & Ewpd & Spd).
  set (i3 := with_data "POINT_DATA" (length (vm_points m)) pdf i2) in *.
  set (cdf := map (fun nc : string * vcd V => (fst nc, pad_arr nk (raw (snd nc)))) (vm_cdata m)).
  assert (Ecd : mapM (fun nc : string * vcd V => do a <- pad_cd nk (snd nc); Ok (fst nc, a)) (vm_cdata m) = Ok cdf /\ Forall field_ok cdf).
  { subst cdf. pose proof (vk_cnone _ _ _ _ H) as Hn. pose proof (vk_cdata _ _ _ _ H) as Hd.
    assert (Hn' : vm_cdata m = [] \/ all_cells (vm_cells m) <> []) by (destruct (vm_cdata m); [now left|right; apply Hn; discriminate]).
    clear Hn. destruct Hn' as [-> | Hn]; [split; [reflexivity|constructor]|].
    induction Hd as [|[name c] l (N1 & N2 & N3) Hl IH]; [split; [reflexivity|constructor]|]. cbn [fst snd] in *. destruct IH as [IH1 IH2].
    assert (Hr : concat (vc_rows c) <> []).
    { intros E. apply Hn. apply length_zero_iff_nil. rewrite <- total_cells_length. unfold total_cells. rewrite <- N3.
      pose proof (f_equal (@length _) E) as E'. rewrite length_concat_sum in E'. exact E'. }
    split.
    - cbn [mapM map]. unfold pad_cd at 1. cbn [fst snd]. destruct (vc_rows c) eqn:Ec; [cbn in Hr; congruence|]. cbn [bind]. rewrite IH1. cbn [bind]. unfold raw at 2. now rewrite Ec.
    - cbn [map]. constructor; [|exact IH2]. cbn [fst snd]. apply pad_field; auto. apply (vk_zero _ _ _ _ H). }
  destruct Ecd as [Ecd Fc].
  assert (T3 : i_type i3 = Some "UNSTRUCTURED_GRID"%string) by (unfold i3; destruct pdf; reflexivity).
  destruct (data_sect "CELL_DATA" (total_cells (vm_cells m)) cdf i3 _ (or_intror eq_refl) (or_introl eq_refl) T3 Fc) as (wcd & Ewcd & Scd).
  set (i4 := with_data "CELL_DATA" (total_cells (vm_cells m)) cdf i3) in *.
  unfold write_vtk. rewrite Ep, Ewp. cbn [bind]. rewrite Ew. cbn [bind]. fold pdf. rewrite Ewpd. cbn [bind]. rewrite Ecd. cbn [bind]. rewrite Ewcd. cbn [bind].
  eexists. split; [reflexivity|].
  assert (S4 : sect (v_line p "DATASET UNSTRUCTURED_GRID" ++ wp ++ wc ++ wpd ++ wcd) info0 i4).
  { eapply sect_app; [apply dataset_sect|]. eapply sect_app; [apply Sp|]. eapply sect_app; [exact Sc|]. eapply sect_app; [exact Spd|exact Scd]. }
  destruct (S4 [] (l_good_nil _ _ _ _ Hp) (l_hard_nil _ _ _ _ Hp)) as (G & Hh & L). rewrite app_nil_r in *.
  set (body := v_line p "DATASET UNSTRUCTURED_GRID" ++ wp ++ wc ++ wpd ++ wcd) in *.
  assert (M1 : one_line (v_mode p)) by (destruct (l_mode _ _ _ _ Hp) as [E|E]; rewrite E; reflexivity).
  assert (F1 : one_line (first_line v51)) by (clear; destruct v51; reflexivity).
  assert (G1 : good (v_line p (v_mode p) ++ body)) by (apply (l_line_good _ _ _ _ Hp); auto).
  assert (G2 : good (v_line p ("written by meshio v" ++ ver)%string ++ v_line p (v_mode p) ++ body)) by (apply (l_line_good _ _ _ _ Hp); auto).
  unfold read_vtk, next_line. rewrite (l_next _ _ _ _ Hp) by auto.
  assert (X1 : startswith (strip (first_line v51)) "# vtk DataFile Version" = true) by (clear; destruct v51; reflexivity).
  assert (X2 : String.eqb (substring 23 (String.length (strip (first_line v51)) - 23) (strip (first_line v51))) "5.1" = v51) by (clear; destruct v51; reflexivity).
  rewrite X1. cbn [negb]. cbn iota. rewrite X2. clear X1 X2.
  assert (R : read_body nk p v51 (v_line p ("written by meshio v" ++ ver)%string ++ v_line p (v_mode p) ++ body) = (
      let pts := Some (vm_dtype m, map (in_3d nk) (vm_points m)) in
      let pd := map (fun na => (fst na, vtk_array nk (snd na))) (vm_pdata m) in
      let craw := map (fun nc => (fst nc, vtk_array nk (raw (snd nc)))) (vm_cdata m) in
      if v51 then
        do offs <- of_option TypeError off;
        do r <- vtk_cells_from_data conn offs types;
        build_mesh pts (fst r) pd (split_data (Some (snd r)) craw) []
      else
        do r <- translate_cells conn types;
        build_mesh pts (fst r) pd (split_data (snd r) craw) [])).
  2: { etransitivity; [|exact R]. clear. destruct v51; reflexivity. }
  unfold read_body, next_line. rewrite (l_next _ _ _ _ Hp) by auto. rewrite (l_next _ _ _ _ Hp) by auto.
  assert (M2 : smem (Abaqus.upper (strip (v_mode p))) ["ASCII"; "BINARY"] = true /\ String.eqb (Abaqus.upper (strip (v_mode p))) (v_mode p) = true)
    by (destruct (l_mode _ _ _ _ Hp) as [E|E]; rewrite E; split; reflexivity).
  destruct M2 as [M2 M3]. rewrite M2, M3. cbn [negb]. cbn iota.
  destruct (L (S (length body)) (Nat.lt_succ_diag_r _)) as ([|f] & Hf & E); [cbn in Hf; lia|]. rewrite E.
  change (read_loop nk p v51 (S f) i4 []) with (match v_next p [] with None => Ok i4 | Some x => match split_ws (fst x) with [] => read_loop nk p v51 f i4 (snd x) | _ => read_loop nk p v51 (S f) i4 [] end end) at 1 || cbn [read_loop].
  rewrite (l_eof _ _ _ _ Hp). cbn [bind].
  assert (Ei4 : i_type i4 = Some "UNSTRUCTURED_GRID"%string /\ i_conn i4 = Some conn /\ i_types i4 = Some types /\
                i_offs i4 = (if v51 then off else None) /\ i_points i4 = Some (vm_dtype m, map (in_3d nk) (vm_points m)) /\ i_fdata i4 = [] /\
                i_pdata i4 = map (fun na => (fst na, vtk_array nk (snd na))) (vm_pdata m) /\
                i_craw i4 = map (fun nc => (fst nc, vtk_array nk (raw (snd nc)))) (vm_cdata m)).
  { assert (Epd : dupdate [] (map (fun na : string * varr V => (fst na, flat1 (snd na))) pdf) = map (fun na => (fst na, vtk_array nk (snd na))) (vm_pdata m)).
    { rewrite dupdate_nil.
      - unfold pdf. rewrite map_map. cbn [fst snd]. apply map_ext_in. intros [name a] Hin. cbn [fst snd]. f_equal. symmetry. apply vtk_array_pad.
        pose proof (vk_pdata _ _ _ _ H) as Hd. rewrite Forall_forall in Hd. destruct (Hd _ Hin) as (_ & (_ & _ & Hr) & _).
        eapply Forall_impl; [|exact Hr]. now intros r [Hl _].
      - unfold pdf. rewrite !keys_map. apply (vk_pnames _ _ _ _ H). }
    assert (Ecr : dupdate [] (map (fun na : string * varr V => (fst na, flat1 (snd na))) cdf) = map (fun nc => (fst nc, vtk_array nk (raw (snd nc)))) (vm_cdata m)).
    { rewrite dupdate_nil.
      - unfold cdf. rewrite map_map. cbn [fst snd]. apply map_ext_in. intros [name a] Hin. cbn [fst snd]. f_equal. symmetry. apply vtk_array_pad.
        pose proof (vk_cdata _ _ _ _ H) as Hd. rewrite Forall_forall in Hd. destruct (Hd _ Hin) as (_ & (_ & _ & Hr) & _).
        eapply Forall_impl; [|exact Hr]. now intros r [Hl _].
      - unfold cdf. rewrite keys_map. unfold dkeys. rewrite map_map. cbn [fst]. apply (vk_cnames _ _ _ _ H). }
    assert (Q3 : i_points i3 = i_points i2 /\ i_conn i3 = Some conn /\ i_types i3 = Some types /\ i_offs i3 = i_offs i2 /\ i_fdata i3 = [] /\ i_craw i3 = [] /\
                 i_pdata i3 = map (fun na => (fst na, vtk_array nk (snd na))) (vm_pdata m)).
    { unfold i3, with_data. destruct pdf as [|na0 pdf0]; [cbn in Epd; rewrite <- Epd; repeat split|].
      unfold update_data. cbn [i_active i_type i_conn i_types i_offs i_points i_fdata i_pdata i_craw]. rewrite Epd.
      change (String.eqb "POINT_DATA" "POINT_DATA") with true. change (String.eqb "POINT_DATA" "CELL_DATA") with false. cbn [orb]. cbn iota.
      unfold i2. cbn [i_active i_type i_conn i_types i_offs i_points i_fdata i_pdata i_craw].
      rewrite (dupdate_nil (map (fun na => (fst na, vtk_array nk (snd na))) (vm_pdata m))) by (rewrite keys_map; apply (vk_pnames _ _ _ _ H)). auto 10. }
    destruct Q3 as (Q1 & Q2 & Q4 & Q5 & Q6 & Q7 & Q8). unfold i4, with_data. destruct cdf as [|na0 cdf0].
    - cbn in Ecr. rewrite <- Ecr. rewrite T3, Q1, Q2, Q4, Q5, Q6, Q7, Q8. cbn [i2 i_points i_offs]. auto 10.
    - unfold update_data. cbn [i_active i_type i_conn i_types i_offs i_points i_fdata i_pdata i_craw]. rewrite Ecr.
      change (String.eqb "CELL_DATA" "POINT_DATA") with false. change (String.eqb "CELL_DATA" "CELL_DATA") with true. cbn [orb]. cbn iota.
      rewrite T3, Q1, Q2, Q4, Q5, Q6, Q7, Q8. cbn [i2 i_points i_offs].
      rewrite (dupdate_nil (map (fun nc => (fst nc, vtk_array nk (raw (snd nc)))) (vm_cdata m))); [auto 10|].
      unfold dkeys. rewrite map_map. cbn [fst]. apply (vk_cnames _ _ _ _ H). }
  destruct Ei4 as (R1 & R2 & R3 & R4 & R5 & R6 & R7 & R8). unfold check_mesh. rewrite R1, R2, R3. cbn [of_option bind].
  change (String.eqb "UNSTRUCTURED_GRID" "UNSTRUCTURED_GRID") with true. cbn iota.
  rewrite R4, R5, R6, R7, R8. cbn zeta. clear. destruct v51; reflexivity.
Qed.
End File.

(** ** The mesh that is built *)
Lemma cells_dims L : Forall cell_ok L -> exists ds, mapM (fun b => cellblock_dim (btype b)) (regroup L) = Ok ds.
Proof.
  intros Y. assert (X : Forall (fun b => exists d, cellblock_dim (btype b) = Ok d) (regroup L)).
  { induction Y as [|[t c] l Hc _ IH]; [constructor|].
    assert (Ht : exists d, cellblock_dim t = Ok d).
    { apply cell_ok_dim in Hc. cbn [fst] in Hc. destruct (cellblock_dim t) as [d|]; [eauto|discriminate]. }
    cbn [regroup]. destruct (regroup l) as [|[t' [|c' cs]] bs'].
    - constructor; [exact Ht|constructor].
    - constructor; auto.
    - destruct (String.eqb t t' && _); inversion IH; subst; constructor; auto. }
  induction X as [|b l (d & Hb) _ (ds & IH)]; [eexists; reflexivity|]. cbn [mapM]. rewrite Hb. cbn [bind]. rewrite IH. eexists. reflexivity.
Qed.

Section Whole.
Context {V : Type} (nk : nums V) (p : vport V) (fits : string -> V -> Prop) (good hard : list (vunt p) -> Prop).
Hypothesis Hp : vport_ok p fits good hard.

Lemma split_data_some sp raw : raw = [] \/ sp <> [] ->
  split_data (Some sp) raw = map (fun na : string * varr V => (fst na, VCd (va_dtype (snd na)) (va_tail (snd na)) (pieces sp (va_rows (snd na))))) raw.
Proof. intros [-> | H]; [destruct sp; reflexivity|]. destruct sp; [congruence|reflexivity]. Qed.

Lemma concat_rows_length v51 m nc : vtk_mesh nk fits v51 m -> In nc (vm_cdata m) -> length (concat (vc_rows (snd nc))) = length (all_cells (vm_cells m)).
Proof.
  intros H Hin. pose proof (vk_cdata _ _ _ _ H) as Hd. rewrite Forall_forall in Hd. destruct (Hd _ Hin) as (_ & _ & E).
  rewrite length_concat_sum, E, all_cells_length. reflexivity.
Qed.

Lemma build_ok v51 m keep : vtk_mesh nk fits v51 m -> Forall block_ok (vm_cells m) ->
  build_mesh (Some (vm_dtype m, map (in_3d nk) (vm_points m))) (regroup (all_cells (vm_cells m)))
    (map (fun na => (fst na, vtk_array nk (snd na))) (vm_pdata m)) (vm_cdata (vtk_image nk keep m)) [] = Ok (vtk_image nk keep m).
Proof.
  intros H Hb. unfold build_mesh. cbn [of_option bind fst snd]. destruct (cells_dims _ (blocks_ok_cells _ Hb)) as (ds & ->). cbn [bind].
  assert (E1 : forallb (fun na : string * varr V => Nat.eqb (length (va_rows (snd na))) (length (map (in_3d nk) (vm_points m))))
                 (map (fun na => (fst na, vtk_array nk (snd na))) (vm_pdata m)) = true).
  { apply forallb_forall. intros na Hin. apply in_map_iff in Hin. destruct Hin as (nb & <- & Hin). cbn [snd].
    pose proof (vk_pdata _ _ _ _ H) as Hd. rewrite Forall_forall in Hd. destruct (Hd _ Hin) as (_ & _ & E).
    unfold vtk_array. cbn [va_rows]. rewrite !map_length, E. apply Nat.eqb_refl. }
  rewrite E1. cbn [negb]. cbn iota.
  match goal with |- (if negb ?x then _ else _) = _ => assert (E2 : x = true) end.
  { apply forallb_forall. intros nc Hin. unfold vtk_image in Hin. cbn [vm_cdata] in Hin. destruct keep; [|destruct Hin].
    apply in_map_iff in Hin. destruct Hin as (nb & <- & Hin). cbn [snd]. unfold vtk_cdata. cbn [vc_rows].
    pose proof (concat_rows_length _ _ _ H Hin) as El. set (bs := regroup (all_cells (vm_cells m))).
    assert (Em : map (@length _) (data_for bs (map (vtk_row nk (vc_tail (snd nb))) (concat (vc_rows (snd nb))))) = map blen bs).
    { apply data_for_length. rewrite map_length. unfold bs. rewrite regroup_cells. exact El. }
    revert Em. generalize (data_for bs (map (vtk_row nk (vc_tail (snd nb))) (concat (vc_rows (snd nb))))) as rows. generalize bs. clear.
    intros bs. induction bs as [|b bs IH]; intros [|r rows] Em; try discriminate; [reflexivity|]. cbn [map] in Em. injection Em as E1 E2.
    specialize (IH _ E2). apply andb_true_iff in IH. destruct IH as [A B]. cbn [length combine forallb fst snd]. rewrite E1, Nat.eqb_refl.
    apply andb_true_iff. split; [exact A|exact B]. }
  rewrite E2. cbn [negb]. reflexivity.
Qed.

Lemma split_ok v51 m sp : vtk_mesh nk fits v51 m -> (all_cells (vm_cells m) <> [] -> sp <> []) ->
  (forall W (d : list W), length d = length (all_cells (vm_cells m)) -> pieces sp d = data_for (regroup (all_cells (vm_cells m))) d) ->
  split_data (Some sp) (map (fun nc => (fst nc, vtk_array nk (raw (snd nc)))) (vm_cdata m)) = vm_cdata (vtk_image nk true m).
Proof.
  intros H Hne Hs. rewrite split_data_some.
  - unfold vtk_image. cbn [vm_cdata]. rewrite map_map. apply map_ext_in. intros nc Hin. cbn [fst snd]. f_equal.
    unfold vtk_cdata, vtk_array, raw. cbn [va_dtype va_tail va_rows]. f_equal. apply Hs. rewrite map_length. exact (concat_rows_length _ _ _ H Hin).
  - pose proof (vk_cnone _ _ _ _ H) as Hn. destruct (vm_cdata m) as [|nc l]; [now left|]. right. apply Hne. apply Hn. discriminate.
Qed.

Lemma pieces_nonempty L (sp : list (nat * nat)) : L <> [] ->
  (forall W (d : list W), length d = length L -> pieces sp d = data_for (regroup L) d) -> sp <> [].
Proof.
  intros HL Hs E. subst sp. specialize (Hs _ L eq_refl). cbn in Hs. apply HL.
  rewrite <- (data_for_concat (regroup L) L) by (now rewrite regroup_cells). rewrite <- Hs. reflexivity.
Qed.

Theorem vtk42_file m ver : vtk_mesh nk fits false m -> Forall fixed_block (vm_cells m) -> one_line ("written by meshio v" ++ ver)%string ->
  exists s, write_vtk nk p false ver m = Ok s /\ read_vtk nk p s = Ok (vtk_image nk true m).
Proof.
  intros H Hf Hv. assert (Hb : Forall block_ok (vm_cells m)) by (eapply Forall_impl; [|exact Hf]; intros b Hb; now left).
  destruct (vtk42_roundtrip _ Hf) as (conn & types & sp & E1 & E2 & E3). rewrite write_cells_42_ok in E1 by auto. injection E1 as <- <-.
  assert (exists wc, write_cells_section_42 p (vm_cells m) = Ok wc) as (wc & Ew).
  { destruct (cells_sect_42 nk p fits good hard Hp false (vm_cells m) "" None None None [] None None None None [] [] [] eq_refl Hb (vk_index _ _ _ _ H) (vk_sizes _ _ _ _ H)) as (w & Ew & _). eauto. }
  destruct (file_sections nk p fits good hard Hp false m ver wc (flat_map enc42 (all_cells (vm_cells m))) None (map code_of (all_cells (vm_cells m))) H Hv Ew) as (s & Es & Er).
  { intros. destruct (cells_sect_42 nk p fits good hard Hp false (vm_cells m) act it ty di nu pts co off0 tys pd cr fd eq_refl Hb (vk_index _ _ _ _ H) (vk_sizes _ _ _ _ H)) as (w & Ew2 & Sw).
    rewrite Ew in Ew2. injection Ew2 as <-. exact Sw. }
  exists s. split; [exact Es|]. rewrite Er. cbn zeta iota. rewrite E2. cbn [bind fst snd].
  rewrite (split_ok false) by (auto; intros HL; eapply pieces_nonempty; eauto). now apply (build_ok false m true).
Qed.

Theorem vtk42_polygon_file m ver : vtk_mesh nk fits false m -> Forall block_ok (vm_cells m) ->
  (exists c, In ("polygon", c) (all_cells (vm_cells m))) -> one_line ("written by meshio v" ++ ver)%string ->
  exists s, write_vtk nk p false ver m = Ok s /\ read_vtk nk p s = Ok (vtk_image nk false m).
Proof.
  intros H Hb Hc Hv.
  destruct (vtk42_polygons _ Hb Hc) as (conn & types & E1 & E2). rewrite write_cells_42_ok in E1 by auto. injection E1 as <- <-.
  assert (exists wc, write_cells_section_42 p (vm_cells m) = Ok wc) as (wc & Ew).
  { destruct (cells_sect_42 nk p fits good hard Hp false (vm_cells m) "" None None None [] None None None None [] [] [] eq_refl Hb (vk_index _ _ _ _ H) (vk_sizes _ _ _ _ H)) as (w & Ew & _). eauto. }
  destruct (file_sections nk p fits good hard Hp false m ver wc (flat_map enc42 (all_cells (vm_cells m))) None (map code_of (all_cells (vm_cells m))) H Hv Ew) as (s & Es & Er).
  { intros. destruct (cells_sect_42 nk p fits good hard Hp false (vm_cells m) act it ty di nu pts co off0 tys pd cr fd eq_refl Hb (vk_index _ _ _ _ H) (vk_sizes _ _ _ _ H)) as (w & Ew2 & Sw).
    rewrite Ew in Ew2. injection Ew2 as <-. exact Sw. }
  exists s. split; [exact Es|]. rewrite Er. cbn zeta iota. rewrite E2. cbn [bind fst snd]. now apply (build_ok false m false).
Qed.

Theorem vtk51_file m ver : vtk_mesh nk fits true m -> Forall block_ok (vm_cells m) -> Forall nonempty_block (vm_cells m) -> vm_cells m <> [] ->
  one_line ("written by meshio v" ++ ver)%string ->
  exists s, write_vtk nk p true ver m = Ok s /\ read_vtk nk p s = Ok (vtk_image nk true m).
Proof.
  intros H Hb Hnb Hne Hv. pose proof (blocks_ok_cells _ Hb) as HL.
  destruct (vtk_cells_from_data_ok (all_cells (vm_cells m)) HL (all_cells_ne _ Hne Hnb)) as (sp & E2 & E3).
  assert (exists wc, write_cells_section_51 p (vm_cells m) = Ok wc) as (wc & Ew).
  { destruct (cells_sect_51 nk p fits good hard Hp true (vm_cells m) "" None None None [] None None None None [] [] [] eq_refl Hb Hnb Hne (vk_index _ _ _ _ H) (vk_total _ _ _ _ H)) as (w & Ew & _). eauto. }
  destruct (file_sections nk p fits good hard Hp true m ver wc (flat_map Vtk51.enc (all_cells (vm_cells m))) (Some (ends 0 (all_cells (vm_cells m)))) (map code_of (all_cells (vm_cells m))) H Hv Ew) as (s & Es & Er).
  { intros. destruct (cells_sect_51 nk p fits good hard Hp true (vm_cells m) act it ty di nu pts co off0 tys pd cr fd eq_refl Hb Hnb Hne (vk_index _ _ _ _ H) (vk_total _ _ _ _ H)) as (w & Ew2 & Sw).
    rewrite Ew in Ew2. injection Ew2 as <-. exact Sw. }
  exists s. split; [exact Es|]. rewrite Er. cbn zeta iota. cbn [of_option bind]. rewrite E2. cbn [bind fst snd].
  rewrite (split_ok true) by (auto; intros _; eapply pieces_nonempty; eauto; apply all_cells_ne; auto). now apply (build_ok true m true).
Qed.
End Whole.

(** A name with a blank is refused. *)
Lemma mapM_In_err {A B} (f : A -> result B) l a e : In a l -> f a = Err e -> exists e', mapM f l = Err e'.
Proof.
  induction l as [|b l IH]; [intros []|]. intros [-> | Hin] Hf; cbn [mapM].
  - rewrite Hf. cbn. eauto.
  - destruct (f b); cbn [bind]; [|eauto]. destruct (IH Hin Hf) as (e' & ->). cbn. eauto.
Qed.
Lemma blank_name_refused {V} (nk : nums V) p v51 ver m name : In name (dkeys (vm_pdata m) ++ dkeys (vm_cdata m)) -> char_in " " name = true ->
  exists e, write_vtk nk p v51 ver m = Err e.
Proof.
  intros Hin Hb. unfold write_vtk.
  destruct (write_points p v51 _ _); cbn [bind]; [|eauto]. destruct (write_cells_section p v51 _); cbn [bind]; [|eauto].
  assert (W : forall title n (d : dict (varr V)), In name (dkeys d) -> exists e, write_data_section p v51 title n d = Err e).
  { intros title n d Hd. unfold write_data_section. destruct d as [|x d]; [destruct Hd|]. unfold write_fields.
    apply in_map_iff in Hd. destruct Hd as ([name' arr] & E & Hd). cbn in E. subst name'.
    destruct (mapM_In_err (write_field p v51) _ _ WriteError Hd) as (e & He); [unfold write_field; now rewrite Hb|]. rewrite He. cbn. eauto. }
  apply in_app_iff in Hin. destruct Hin as [Hin|Hin].
  - destruct (W "POINT_DATA"%string (length (vm_points m)) (map (fun na => (fst na, pad_arr nk (snd na))) (vm_pdata m))) as (e & ->); [now rewrite keys_map|]. cbn. eauto.
  - destruct (write_data_section p v51 "POINT_DATA" _ _); cbn [bind]; [|eauto].
    destruct (mapM _ (vm_cdata m)) as [cdata|e] eqn:E; cbn [bind]; [|eauto].
    destruct (W "CELL_DATA"%string (total_cells (vm_cells m)) cdata) as (e & ->); [|cbn; eauto].
    assert (Ek : dkeys cdata = dkeys (vm_cdata m)); [|now rewrite Ek].
    revert cdata E. clear. induction (vm_cdata m) as [|nc l IH]; intros cdata E; cbn [mapM] in E; [now injection E as <-|].
    destruct (pad_cd nk (snd nc)); cbn [bind] in E; [|discriminate]. destruct (mapM _ l) as [cl|]; cbn [bind] in E; [|discriminate].
    injection E as <-. unfold dkeys in *. cbn [map fst]. f_equal. now apply IH.
Qed.
