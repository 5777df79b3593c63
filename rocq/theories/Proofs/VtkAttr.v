(** Proofs about attributes in legacy VTK files (C81). *)
From Coq Require Import ZArith NArith List String Ascii Bool Lia.
From Verif.Lib Require Import Base Facts Facts2 Runs Text TextFacts Lines LinesFacts Bytes BytesFacts File.
From Verif.Model Require Import Core Helpers Vtk Port Numpy VtkFile.
From Verif.Model Require Abaqus.
From Verif.Spec Require Import Core Blocks Vtk VtkFile.
From Verif.Proofs Require Import Blocks RunsBlocks CoreMisc Vtk Vtk51 Grid Numpy Port VtkPort Gmsh22File VtkFile VtkGrid.
Import ListNotations.
Import Model.VtkFile Spec.VtkFile.

Lemma typed v51 dt : In dt (known v51) ->
  dtype_of v51 (lower (type_name v51 dt)) = Ok dt /\ word (type_name v51 dt) = true /\ dmem dt dtype_widths = true.
Proof.
  intros H. destruct v51; cbn [known known_42 known_51 In] in H;
  repeat (destruct H as [<-|H]; [repeat split|]); destruct H.
Qed.

Section Attr.
Context {V : Type} (nk : nums V) (p : vport V) (fits : string -> V -> Prop) (good hard : list (vunt p) -> Prop).
Hypothesis Hp : vport_ok p fits good hard.
Variable v51 : bool.
Notation sect := (sect nk p good hard v51).

(** *** Numbers *)
Lemma rows_get n dt k rows s : rows_ok fits v51 n dt k rows -> 1 <= n -> 1 <= k -> good s -> hard s ->
  good (v_put p dt (concat rows) ++ s) /\ length (concat rows) = n * k /\
  v_get p dt (n * k) (v_put p dt (concat rows) ++ s) = Ok (concat rows, s) /\ length s <= length (v_put p dt (concat rows) ++ s).
Proof.
  intros (Hd & Hl & Hr) Hn Hk Hg Hh. destruct (typed _ _ Hd) as (_ & _ & Hm).
  assert (Fc : Forall (fits dt) (concat rows)).
  { clear - Hr. induction Hr as [|r rows [_ Hx] H IH]; cbn; [constructor|]. apply Forall_app. auto. }
  assert (Hlen : Forall (fun r => length r = k) rows) by (eapply Forall_impl; [|exact Hr]; intros r [E _]; exact E).
  assert (El : length (concat rows) = n * k) by (rewrite (concat_rect_length _ k Hlen); congruence).
  assert (Hne : concat rows <> []) by (intros E; rewrite E in El; cbn in El; nia).
  split; [now apply (l_put_good _ _ _ _ Hp)|]. split; [exact El|].
  destruct (l_get _ _ _ _ Hp dt (concat rows) s Hm Fc Hg Hh) as (kk & K0 & Lk & Egt).
  rewrite (K0 Hne) in *. change (blanks p 0 ++ s) with s in *. rewrite <- El. auto.
Qed.
Lemma reshape_ok n dt k rows : rows_ok fits v51 n dt k rows -> 1 <= k -> reshape_rows k (concat rows) = Ok rows.
Proof.
  intros (_ & Hl & Hr) Hk. assert (Hlen : Forall (fun r => length r = k) rows) by (eapply Forall_impl; [|exact Hr]; intros r [E _]; exact E).
  unfold reshape_rows. rewrite (concat_rect_length _ k Hlen). rewrite Nat.mod_mul by lia. cbn [Nat.eqb]. rewrite Nat.div_mul by lia.
  now rewrite rows_of_concat.
Qed.

(** *** Metadata *)
Lemma skip_meta_ok ls s : metadata_ok ls -> good s ->
  good (concat (map (v_line p) ls) ++ v_line p "" ++ s) /\
  forall fuel, length (concat (map (v_line p) ls) ++ v_line p "" ++ s) <= fuel ->
    skip_meta p fuel (concat (map (v_line p) ls) ++ v_line p "" ++ s) = s.
Proof.
  intros H Hg. induction H as [|l ls (Ho & Hb) _ (IH1 & IH2)].
  - cbn [map concat app]. split; [now apply (l_line_good _ _ _ _ Hp)|]. intros [|fuel] Hf.
    + pose proof (l_line_pos _ _ _ _ Hp "" s). lia.
    + cbn [skip_meta]. rewrite (l_next _ _ _ _ Hp) by (auto; reflexivity). reflexivity.
  - cbn [map concat]. rewrite <- app_assoc. set (r := concat (map (v_line p) ls) ++ v_line p "" ++ s) in *.
    split; [now apply (l_line_good _ _ _ _ Hp)|]. intros [|fuel] Hf.
    + pose proof (l_line_pos _ _ _ _ Hp l r). lia.
    + cbn [skip_meta]. rewrite (l_next _ _ _ _ Hp) by auto. rewrite Hb. apply IH2. pose proof (l_line_pos _ _ _ _ Hp l r). lia.
Qed.
Lemma meta_next ls s : metadata_ok ls -> good s -> good (metadata p ls ++ s) /\ hard (metadata p ls ++ s) /\ length s < length (metadata p ls ++ s) /\
  exists rest, v_next p (metadata p ls ++ s) = Some ("METADATA"%string, rest) /\ length s <= length rest /\ length rest < length (metadata p ls ++ s) /\
    skip_meta p (length rest) rest = s.
Proof.
  intros Hm Hg. destruct (skip_meta_ok ls s Hm Hg) as (G & S). unfold metadata. rewrite <- !app_assoc. set (r := concat (map (v_line p) ls) ++ v_line p "" ++ s) in *.
  assert (Lr : length s <= length r).
  { unfold r. rewrite app_length. pose proof (l_line_pos _ _ _ _ Hp "" s). lia. }
  pose proof (l_line_pos _ _ _ _ Hp (row_line ["METADATA"%string]) r) as L2.
  split; [now apply (line_good p fits good hard Hp)|]. split; [apply (line_hard p fits good hard Hp); [reflexivity|discriminate]|]. split; [lia|].
  exists r. split; [rewrite (l_next _ _ _ _ Hp) by (auto; reflexivity); reflexivity|]. split; [exact Lr|]. split; [exact L2|]. apply S. lia.
Qed.
Lemma meta_sect ls i : metadata_ok ls -> sect (metadata p ls) i i.
Proof.
  intros Hm s Hg Hh. destruct (skip_meta_ok ls s Hm Hg) as (G & S). destruct (meta_next ls s Hm Hg) as (G1 & H1 & L1 & rest & E & L2 & L3 & E2).
  split; [exact G1|]. split; [exact H1|]. unfold metadata. rewrite <- !app_assoc.
  assert (L : length s <= length (concat (map (v_line p) ls) ++ v_line p "" ++ s)).
  { rewrite app_length. pose proof (l_line_pos _ _ _ _ Hp "" s). lia. }
  eapply (leads_section nk p fits good hard Hp v51) with (rest' := s); [reflexivity|reflexivity|exact G|reflexivity| |exact L].
  change (Abaqus.upper "METADATA") with "METADATA"%string. unfold read_section. change (String.eqb "METADATA" "METADATA") with true. cbn iota.
  rewrite S by auto. reflexivity.
Qed.

(** *** Arrays in fields *)
Definition one_field (n : nat) (x : option (list string) * (string * varr V)) : Prop :=
  match fst x with Some ls => metadata_ok ls | None => True end /\ name_ok (fst (snd x)) /\
  (va_tail (snd (snd x)) = [] \/ exists k, va_tail (snd (snd x)) = [S (S k)]) /\
  rows_ok fits v51 n (va_dtype (snd (snd x))) (fold_right Nat.mul 1 (va_tail (snd (snd x)))) (va_rows (snd (snd x))).
Lemma attr_fields n l : 1 <= n -> Forall (one_field n) l -> forall s, good s -> hard s ->
  good (concat (map (field_lines p v51) l) ++ s) /\ hard (concat (map (field_lines p v51) l) ++ s) /\
  length s <= length (concat (map (field_lines p v51) l) ++ s) /\
  forall acc, read_fields p v51 (length l) acc (concat (map (field_lines p v51) l) ++ s) = Ok (dupdate acc (map snd l), s).
Proof.
  intros Hn H s Hg Hh. induction H as [|[meta [name a]] l Hf H (G & Hd' & L & R)]; [cbn; auto|].
  destruct Hf as (Hmeta & (Hw & Hm) & Ht & Hr). cbn [fst snd] in *.
  cbn [map concat]. set (s1 := concat (map (field_lines p v51) l) ++ s) in *.
  set (dt := va_dtype a) in *. set (rows := va_rows a) in *.
  assert (Hk : exists k, fold_right Nat.mul 1 (va_tail a) = S k) by (destruct Ht as [-> | (k & ->)]; [exists 0; auto|]; exists (S k); cbn; lia).
  destruct Hk as (k & Ek). rewrite Ek in Hr.
  destruct (rows_get n dt (S k) rows s1 Hr Hn ltac:(lia) G Hd') as (Gp & El & Eg & Lg).
  destruct (typed v51 dt (proj1 Hr)) as (Ed & Hwv & Hmd). set (vt := type_name v51 dt) in *.
  assert (W : forallb word [name; str_of_nat (S k); str_of_nat (length rows); vt] = true)
    by (cbn [forallb]; now rewrite Hw, !word_str_of_nat, Hwv).
  set (s2 := v_line p (row_line [name; str_of_nat (S k); str_of_nat (length rows); vt]) ++ v_put p dt (concat rows) ++ s1).
  assert (E : (field_lines p v51 (meta, (name, a)) ++ concat (map (field_lines p v51) l)) ++ s =
              match meta with Some ls => metadata p ls | None => [] end ++ s2).
  { unfold field_lines at 1. fold dt rows. rewrite Ek. fold vt. unfold s2, s1. rewrite <- !app_assoc. reflexivity. }
  rewrite E. clear E.
  assert (G2 : good s2) by (now apply (line_good p fits good hard Hp)).
  assert (H2 : hard s2) by (apply (line_hard p fits good hard Hp); [exact W|discriminate]).
  assert (L2 : length s <= length s2).
  { pose proof (l_line_pos _ _ _ _ Hp (row_line [name; str_of_nat (S k); str_of_nat (length rows); vt]) (v_put p dt (concat rows) ++ s1)). fold s2 in H0. lia. }
  assert (N2 : v_next p s2 = Some (row_line [name; str_of_nat (S k); str_of_nat (length rows); vt], v_put p dt (concat rows) ++ s1))
    by (unfold s2; rewrite (l_next _ _ _ _ Hp) by (auto using one_line_row); reflexivity).
  assert (Sp : split_ws (row_line [name; str_of_nat (S k); str_of_nat (length rows); vt]) = [name; str_of_nat (S k); str_of_nat (length rows); vt])
    by (unfold row_line; now rewrite split_ws_join).
  assert (Fh : field_head v51 [name; str_of_nat (S k); str_of_nat (length rows); vt] = Ok (name, S k, n, dt)).
  { unfold field_head. rewrite !parse_count. cbn [of_option bind]. rewrite Ed. cbn [bind]. rewrite !Nat2Z.id. destruct Hr as (_ & -> & _). reflexivity. }
  assert (Ea : (if Nat.eqb (S k) 1 then Ok (VArr dt [] (map (fun x => [x]) (concat rows)))
                else if Nat.eqb (length (concat rows)) (S k * n) then Ok (VArr dt [S k] (rows_of n (S k) (concat rows)))
                     else Err ValueError) = Ok a).
  { destruct Hr as (_ & Hl & Hr). assert (Hlen : Forall (fun r => length r = S k) rows) by (eapply Forall_impl; [|exact Hr]; intros r [E _]; exact E).
    rewrite El, (Nat.mul_comm n), Nat.eqb_refl, <- Hl, rows_of_concat by auto. destruct a as [dta ta ra]. cbn [va_tail va_dtype va_rows] in *. subst dt rows.
    destruct Ht as [-> | (k' & ->)].
    - cbn in Ek. injection Ek as <-. cbn [Nat.eqb]. f_equal. f_equal.
      clear - Hlen. induction Hlen as [|r rows Hr H IH]; [reflexivity|]. destruct r as [|x [|]]; try discriminate. cbn [concat app map]. now rewrite IH.
    - cbn in Ek. replace k with (S k') by lia. reflexivity. }
  assert (Step : forall acc, (do d <- v_get p dt (S k * n) (v_put p dt (concat rows) ++ s1);
      do a0 <- (if Nat.eqb (S k) 1 then Ok (VArr dt [] (map (fun x => [x]) (fst d)))
                else if Nat.eqb (length (fst d)) (S k * n) then Ok (VArr dt [S k] (rows_of n (S k) (fst d))) else Err ValueError);
      read_fields p v51 (length l) (dset name a0 acc) (snd d)) = Ok (dupdate acc ((name, a) :: map snd l), s)).
  { intros acc. rewrite (Nat.mul_comm (S k) n) at 1. rewrite Eg. cbn [bind fst snd]. rewrite Ea. cbn [bind]. rewrite R. reflexivity. }
  destruct meta as [ls|].
  - destruct (meta_next ls s2 Hmeta G2) as (G3 & H3 & L3 & rest & E1 & L4 & L5 & E2).
    split; [exact G3|]. split; [exact H3|]. split; [lia|]. intros acc. cbn [length read_fields]. unfold next_line at 1. rewrite E1.
    change (split_ws "METADATA") with ["METADATA"%string]. unfold tok at 1. cbn [nth_error of_option bind].
    change (String.eqb "METADATA" "METADATA") with true. cbn iota. rewrite E2. unfold next_line. rewrite N2, Sp, Fh. cbn [bind]. apply Step.
  - cbn [app]. split; [exact G2|]. split; [exact H2|]. split; [exact L2|]. intros acc. cbn [length read_fields]. unfold next_line at 1. rewrite N2, Sp.
    unfold tok at 1. cbn [nth_error of_option bind]. replace (String.eqb name "METADATA") with false by (symmetry; now apply String.eqb_neq).
    rewrite Fh. cbn [bind]. apply Step.
Qed.

(** *** One attribute *)
Definition grids : list string := ["UNSTRUCTURED_GRID"; "STRUCTURED_POINTS"; "STRUCTURED_GRID"; "RECTILINEAR_GRID"].
Lemma no_info t key : In t grids -> In key ["SCALARS"; "VECTORS"; "TENSORS"; "FIELD"]%string ->
  exists infos, dget t vtk_dataset_infos = Some infos /\ smem key infos = false.
Proof.
  intros Ht Hk. unfold grids in Ht. cbn [In] in Ht, Hk.
  repeat (destruct Ht as [<-|Ht]; [eexists; split; [reflexivity|repeat (destruct Hk as [<-|Hk]; [reflexivity|]); destruct Hk]|]). destruct Ht.
Qed.
Lemma attribute_sect n a i t : In t grids -> i_type i = Some t -> i_items i = Some (Z.of_nat n) -> 1 <= n -> attribute_ok fits v51 n a ->
  sect (attribute_lines p v51 a) i (update_data i (attribute_arrays a)).
Proof.
  intros Ht Hi Hit Hn Ha. destruct a as [name dt nc shown table rows|name dt rows|name dt rows|title l|ls]; cbn [attribute_lines attribute_arrays attribute_ok] in *.
  - destruct Ha as (Hw & Hwt & Hnc & Hsh & Hr). intros s Hg Hh.
    destruct (rows_get n dt nc rows s Hr Hn (proj1 Hnc) Hg Hh) as (Gp & El & Eg & Lg).
    destruct (typed v51 dt (proj1 Hr)) as (Ed & Hwv & _). set (vt := type_name v51 dt) in *.
    assert (W1 : forallb word ["LOOKUP_TABLE"; table]%string = true) by (cbn [forallb]; now rewrite Hwt).
    assert (W : forallb word (["SCALARS"; name; vt]%string ++ (if shown then [str_of_nat nc] else [])) = true)
      by (rewrite forallb_app; cbn [forallb]; rewrite Hw, Hwv; destruct shown; cbn [forallb]; rewrite ?word_str_of_nat; reflexivity).
    rewrite <- !app_assoc. set (s1 := v_put p dt (concat rows) ++ s) in *.
    assert (G1 : good (v_line p (row_line ["LOOKUP_TABLE"; table]%string) ++ s1)) by (now apply (line_good p fits good hard Hp)).
    split; [now apply (line_good p fits good hard Hp)|]. split; [apply (line_hard p fits good hard Hp); [exact W|discriminate]|].
    eapply (leads_subsection nk p fits good hard Hp v51) with (h := "SCALARS"%string) (rest' := s); [reflexivity|exact W|exact G1|reflexivity| |].
    2:{ pose proof (l_line_pos _ _ _ _ Hp (row_line ["LOOKUP_TABLE"; table]%string) s1). lia. }
    change (Abaqus.upper "SCALARS") with "SCALARS"%string. unfold read_subsection. rewrite Hi. cbn [of_option bind].
    destruct (no_info t "SCALARS" Ht) as (infos & -> & Hs); [now left|]. cbn [of_option bind]. rewrite Hs.
    change (String.eqb "SCALARS" "SCALARS") with true. cbn iota. rewrite Hit. cbn [of_option bind].
    assert (Er : read_scalars p v51 (Z.of_nat n) (["SCALARS"; name; vt]%string ++ (if shown then [str_of_nat nc] else []))
              (v_line p (row_line ["LOOKUP_TABLE"; table]%string) ++ s1) = Ok ([(name, VArr dt [nc] rows)], s)).
    { unfold read_scalars, tok.
      assert (En : match nth_error (["SCALARS"; name; vt]%string ++ (if shown then [str_of_nat nc] else [])) 3 with
                   | Some x => of_option ValueError (parse_Z x) | None => Ok 1%Z end = Ok (Z.of_nat nc)).
      { destruct shown; cbn [app nth_error]; [now rewrite parse_count|]. rewrite Hsh by auto. reflexivity. }
      rewrite En. cbn [app nth_error of_option bind].
      replace (negb ((0 <? Z.of_nat nc) && (Z.of_nat nc <? 5))%Z) with false by (symmetry; apply negb_false_iff, andb_true_iff; split; apply Z.ltb_lt; lia).
      rewrite Ed. cbn [bind]. rewrite (l_next _ _ _ _ Hp) by (auto using one_line_row). unfold row_line. rewrite split_ws_join by auto.
      change (Abaqus.upper "LOOKUP_TABLE") with "LOOKUP_TABLE"%string. change (String.eqb "LOOKUP_TABLE" "LOOKUP_TABLE") with true. cbn [negb]. cbn iota.
      rewrite <- Nat2Z.inj_mul, !Nat2Z.id, Eg. cbn [bind fst snd]. rewrite (reshape_ok n dt nc rows Hr) by lia. reflexivity. }
    rewrite Er. reflexivity.
  - destruct Ha as (Hw & Hr). intros s Hg Hh. destruct (rows_get n dt 3 rows s Hr Hn ltac:(lia) Hg Hh) as (Gp & El & Eg & Lg).
    destruct (typed v51 dt (proj1 Hr)) as (Ed & Hwv & _). set (vt := type_name v51 dt) in *.
    assert (W : forallb word ["VECTORS"; name; vt]%string = true) by (cbn [forallb]; now rewrite Hw, Hwv).
    rewrite <- !app_assoc. split; [now apply (line_good p fits good hard Hp)|]. split; [apply (line_hard p fits good hard Hp); [exact W|discriminate]|].
    eapply (leads_subsection nk p fits good hard Hp v51) with (rest' := s); [reflexivity|exact W|exact Gp|reflexivity| |exact Lg].
    change (Abaqus.upper "VECTORS") with "VECTORS"%string. unfold read_subsection. rewrite Hi. cbn [of_option bind].
    destruct (no_info t "VECTORS" Ht) as (infos & -> & Hs); [right; now left|]. cbn [of_option bind]. rewrite Hs.
    change (String.eqb "VECTORS" "SCALARS") with false. change (String.eqb "VECTORS" "VECTORS") with true. cbn iota. rewrite Hit. cbn [of_option bind].
    unfold read_field, tok. cbn [nth_error of_option bind]. rewrite Ed. cbn [bind].
    change (fold_right Nat.mul 1 [3]) with 3. rewrite Nat2Z.id, (Nat.mul_comm 3), Eg. cbn [bind fst snd]. rewrite (reshape_ok n dt 3 rows Hr) by lia. reflexivity.
  - destruct Ha as (Hw & Hr). intros s Hg Hh. destruct (rows_get n dt 9 rows s Hr Hn ltac:(lia) Hg Hh) as (Gp & El & Eg & Lg).
    destruct (typed v51 dt (proj1 Hr)) as (Ed & Hwv & _). set (vt := type_name v51 dt) in *.
    assert (W : forallb word ["TENSORS"; name; vt]%string = true) by (cbn [forallb]; now rewrite Hw, Hwv).
    rewrite <- !app_assoc. split; [now apply (line_good p fits good hard Hp)|]. split; [apply (line_hard p fits good hard Hp); [exact W|discriminate]|].
    eapply (leads_subsection nk p fits good hard Hp v51) with (rest' := s); [reflexivity|exact W|exact Gp|reflexivity| |exact Lg].
    change (Abaqus.upper "TENSORS") with "TENSORS"%string. unfold read_subsection. rewrite Hi. cbn [of_option bind].
    destruct (no_info t "TENSORS" Ht) as (infos & -> & Hs); [right; right; now left|]. cbn [of_option bind]. rewrite Hs.
    change (String.eqb "TENSORS" "SCALARS") with false. change (String.eqb "TENSORS" "VECTORS") with false. change (String.eqb "TENSORS" "TENSORS") with true. cbn iota.
    rewrite Hit. cbn [of_option bind]. unfold read_field, tok. cbn [nth_error of_option bind]. rewrite Ed. cbn [bind].
    change (fold_right Nat.mul 1 [3; 3]) with 9. rewrite Nat2Z.id, (Nat.mul_comm 9), Eg. cbn [bind fst snd]. rewrite (reshape_ok n dt 9 rows Hr) by lia. reflexivity.
  - destruct Ha as (Hw & Hnd & Hl). intros s Hg Hh. destruct (attr_fields n l Hn Hl s Hg Hh) as (G & Hh' & L & R).
    assert (W : forallb word ["FIELD"; title; str_of_nat (length l)]%string = true) by (cbn [forallb]; now rewrite Hw, word_str_of_nat).
    rewrite <- !app_assoc. split; [now apply (line_good p fits good hard Hp)|]. split; [apply (line_hard p fits good hard Hp); [exact W|discriminate]|].
    eapply (leads_subsection nk p fits good hard Hp v51) with (rest' := s); [reflexivity|exact W|exact G|reflexivity| |exact L].
    change (Abaqus.upper "FIELD") with "FIELD"%string. unfold read_subsection. rewrite Hi. cbn [of_option bind].
    destruct (no_info t "FIELD" Ht) as (infos & -> & Hs); [right; right; right; now left|]. cbn [of_option bind]. rewrite Hs.
    change (String.eqb "FIELD" "SCALARS") with false. change (String.eqb "FIELD" "VECTORS") with false.
    change (String.eqb "FIELD" "TENSORS") with false. change (String.eqb "FIELD" "FIELD") with true. cbn iota.
    unfold tok_int, tok. cbn [nth_error of_option bind]. rewrite parse_count. cbn [of_option bind]. rewrite Nat2Z.id, R. cbn [bind fst snd].
    rewrite dupdate_nil; [reflexivity|]. unfold dkeys. rewrite map_map. exact Hnd.
  - replace (update_data i []) with i; [now apply meta_sect|]. unfold update_data. cbn [dupdate fold_left]. destruct i. cbn.
    destruct (String.eqb i_active "POINT_DATA"), (String.eqb i_active "CELL_DATA"), (String.eqb i_active "DATASET"); reflexivity.
Qed.

(** *** Sections *)
Definition same_grid (i i' : vinfo V) : Prop :=
  i_type i' = i_type i /\ i_dims i' = i_dims i /\ i_nums i' = i_nums i /\ i_points i' = i_points i /\ i_conn i' = i_conn i /\ i_offs i' = i_offs i /\
  i_types i' = i_types i /\ i_fdata i' = i_fdata i.
Lemma same_grid_refl i : same_grid i i. Proof. repeat split. Qed.
Lemma same_grid_trans i j k : same_grid i j -> same_grid j k -> same_grid i k.
Proof. unfold same_grid. intuition congruence. Qed.
Lemma dupdate_app (d a b : dict (varr V)) : dupdate (dupdate d a) b = dupdate d (a ++ b).
Proof. unfold dupdate. now rewrite fold_left_app. Qed.
Definition title_of (points : bool) : string := if points then "POINT_DATA" else "CELL_DATA".
Lemma update_title points i d : i_active i = title_of points ->
  same_grid i (update_data i d) /\ i_active (update_data i d) = title_of points /\ i_items (update_data i d) = i_items i /\
  i_pdata (update_data i d) = (if points then dupdate (i_pdata i) d else i_pdata i) /\
  i_craw (update_data i d) = (if points then i_craw i else dupdate (i_craw i) d).
Proof. intros E. unfold update_data, same_grid. rewrite E. destruct points; repeat split. Qed.
Lemma attributes_sect points n l t : In t grids -> forall i, i_type i = Some t -> i_active i = title_of points -> i_items i = Some (Z.of_nat n) ->
  (l <> [] -> 1 <= n) -> Forall (attribute_ok fits v51 n) l ->
  exists i', sect (concat (map (attribute_lines p v51) l)) i i' /\ same_grid i i' /\
    i_pdata i' = (if points then dupdate (i_pdata i) (flat_map attribute_arrays l) else i_pdata i) /\
    i_craw i' = (if points then i_craw i else dupdate (i_craw i) (flat_map attribute_arrays l)) /\ i_items i' = i_items i.
Proof.
  intros Ht. induction l as [|a l IH]; intros i Hi Hac Hit Hn Hl.
  - exists i. split; [apply (sect_nil nk p good hard v51)|]. split; [apply same_grid_refl|]. destruct points; repeat split.
  - inversion Hl as [|? ? Ha Hl']; subst. assert (H1 : 1 <= n) by (apply Hn; discriminate).
    destruct (update_title points i (attribute_arrays a) Hac) as (U1 & U2 & U3 & U4 & U5).
    destruct (IH (update_data i (attribute_arrays a))) as (i' & S & G & P & C & I); auto.
    exists i'. split; [cbn [map concat]; eapply (sect_app nk p good hard v51); [now apply (attribute_sect n a i t)|exact S]|].
    split; [eapply same_grid_trans; eauto|]. rewrite P, C, I, U3, U4, U5. cbn [flat_map]. destruct points; repeat split; auto; apply dupdate_app.
Qed.
Lemma sections_sect np nc l t : In t grids -> forall i, i_type i = Some t -> Forall (section_ok fits v51 np nc) l ->
  exists i', sect (concat (map (section_lines p v51 np nc) l)) i i' /\ same_grid i i' /\
    i_pdata i' = dupdate (i_pdata i) (flat_map (section_arrays true) l) /\ i_craw i' = dupdate (i_craw i) (flat_map (section_arrays false) l) /\
    (i_items i <> None -> i_items i' <> None).
Proof.
  intros Ht. induction l as [|[points l1] l IH]; intros i Hi Hl.
  - exists i. split; [apply (sect_nil nk p good hard v51)|]. split; [apply same_grid_refl|]. repeat split. auto.
  - inversion Hl as [|? ? (Ha & Hn) Hl']; subst. cbn [fst snd] in *. set (n := if points then np else nc) in *.
    set (i0 := VInfo (title_of points) (Some (Z.of_nat n)) (i_type i) (i_dims i) (i_nums i) (i_points i) (i_conn i) (i_offs i) (i_types i)
           (i_pdata i) (i_craw i) (i_fdata i)).
    assert (S0 : sect (v_line p (row_line [title_of points; str_of_nat n])) i i0).
    { intros s Hg Hh. assert (W : forallb word [title_of points; str_of_nat n] = true) by (cbn [forallb]; rewrite word_str_of_nat; destruct points; reflexivity).
      split; [now apply (line_good p fits good hard Hp)|]. split; [apply (line_hard p fits good hard Hp); [exact W|discriminate]|].
      eapply (leads_section nk p fits good hard Hp v51) with (rest' := s); [reflexivity|exact W|exact Hg|destruct points; reflexivity| |lia].
      unfold i0. destruct points; cbn [title_of].
      + change (Abaqus.upper "POINT_DATA") with "POINT_DATA"%string. cbn -[parse_Z str_of_nat]. rewrite parse_count. reflexivity.
      + change (Abaqus.upper "CELL_DATA") with "CELL_DATA"%string. cbn -[parse_Z str_of_nat]. rewrite parse_count. reflexivity. }
    destruct (attributes_sect points n l1 t Ht i0 Hi eq_refl eq_refl Hn Ha) as (i1 & S1 & G1 & P1 & C1 & I1).
    assert (Hi1 : i_type i1 = Some t) by (destruct G1 as (-> & _); exact Hi).
    destruct (IH i1 Hi1 Hl') as (i2 & S2 & G2 & P2 & C2 & I2). exists i2. split; [|split; [|split; [|split]]].
    + cbn [map concat]. eapply (sect_app nk p good hard v51); [|exact S2]. unfold section_lines. cbn [fst snd].
      replace (if points then ["POINT_DATA"; str_of_nat np] else ["CELL_DATA"; str_of_nat nc])%string with [title_of points; str_of_nat n] by (unfold n; destruct points; reflexivity).
      eapply (sect_app nk p good hard v51); [exact S0|exact S1].
    + eapply same_grid_trans; [|exact G2]. exact G1.
    + rewrite P2, P1. cbn [flat_map]. unfold section_arrays at 2. cbn [fst snd]. unfold i0. cbn [i_pdata]. destruct points; cbn [Bool.eqb app]; [apply dupdate_app|reflexivity].
    + rewrite C2, C1. cbn [flat_map]. unfold section_arrays at 2. cbn [fst snd]. unfold i0. cbn [i_craw]. destruct points; cbn [Bool.eqb app]; [reflexivity|apply dupdate_app].
    + intros _. apply I2. rewrite I1. unfold i0. discriminate.
Qed.

(** *** Whole files *)
Definition ver_of : string := if v51 then "5.1" else "4.2".
Lemma base_sect m ver wc conn off types : vm_pdata m = [] -> vm_cdata m = [] ->
  vtk_mesh nk fits v51 m ->
  write_cells_section p v51 (vm_cells m) = Ok wc ->
  (forall act it ty di nu pts co off0 tys pd cr fd, sect wc (VInfo act it ty di nu pts co off0 tys pd cr fd)
     (VInfo "CELL_TYPES" (Some (Z.of_nat (total_cells (vm_cells m)))) ty di nu pts (Some conn) (if v51 then off else off0) (Some types) pd cr fd)) ->
  exists w, write_vtk nk p v51 ver m = Ok (vtk_header p ver_of ("written by meshio v" ++ ver)%string ++ w) /\
    sect w info0 (VInfo "CELL_TYPES" (Some (Z.of_nat (total_cells (vm_cells m)))) (Some "UNSTRUCTURED_GRID"%string) None []
      (Some (vm_dtype m, map (in_3d nk) (vm_points m))) (Some conn) (if v51 then off else None) (Some types) [] [] []).
Proof.
  intros Ep0 Ec0 H Ew Hc. destruct (pad_points_ok nk (vm_points m) (proj1 (vk_points _ _ _ _ H))) as [Ep Hp3].
  assert (Hpf : Forall (Forall (fits (vm_dtype m))) (map (in_3d nk) (vm_points m))).
  { apply Forall_map. destruct (vk_points _ _ _ _ H) as [Hl Hf]. rewrite Forall_forall in *. intros q Hq. specialize (Hf q Hq).
    unfold in_3d. destruct q as [|a [|b [|c q]]]; auto. inversion Hf as [|? ? Ha Hr]; subst. inversion Hr as [|? ? Hb _]; subst.
    pose proof (vk_zero _ _ _ _ H _ _ Ha). now repeat (constructor; [assumption|]). }
  destruct (points_sect nk p fits good hard Hp v51 (vm_dtype m) (map (in_3d nk) (vm_points m)) "DATASET" None (Some "UNSTRUCTURED_GRID"%string) None [] None None None None [] [] []
              (vk_points_type _ _ _ _ H) Hp3 Hpf) as (wp & Ewp & Sp).
  exists (v_line p "DATASET UNSTRUCTURED_GRID" ++ wp ++ wc). split.
  - unfold write_vtk. rewrite Ep, Ewp. cbn [bind]. rewrite Ew. cbn [bind]. rewrite Ep0, Ec0. cbn [map mapM write_data_section bind]. rewrite app_nil_r.
    unfold vtk_header, ver_of. rewrite <- !app_assoc. clear. destruct v51; reflexivity.
  - eapply (sect_app nk p good hard v51); [apply (dataset_sect nk p fits good hard Hp v51)|]. eapply (sect_app nk p good hard v51); [apply Sp|]. apply Hc.
Qed.
Lemma arrays_length np nc points l name a : Forall (section_ok fits v51 np nc) l -> In (name, a) (flat_map (section_arrays points) l) ->
  length (va_rows a) = (if points then np else nc) /\ 1 <= if points then np else nc.
Proof.
  intros Hl Hin. apply in_flat_map in Hin as ([pt l1] & H1 & Hin). unfold section_arrays in Hin. cbn [fst snd] in Hin.
  destruct (Bool.eqb pt points) eqn:E; [|destruct Hin]. apply Bool.eqb_prop in E. subst pt. rewrite Forall_forall in Hl. destruct (Hl _ H1) as (Ha & Hn). cbn [fst snd] in *.
  apply in_flat_map in Hin as (at1 & H2 & Hin). rewrite Forall_forall in Ha. specialize (Ha _ H2).
  split; [|apply Hn; intros E; rewrite E in H2; destruct H2].
  destruct at1; cbn [attribute_arrays attribute_ok] in *.
  - destruct Hin as [E|[]]. injection E as <- <-. cbn [va_rows]. destruct Ha as (_ & _ & _ & _ & _ & E & _). exact E.
  - destruct Hin as [E|[]]. injection E as <- <-. cbn [va_rows]. destruct Ha as (_ & _ & E & _). exact E.
  - destruct Hin as [E|[]]. injection E as <- <-. cbn [va_rows]. destruct Ha as (_ & _ & E & _). exact E.
  - destruct Ha as (_ & _ & Ha). apply in_map_iff in Hin as ([me [nm a']] & E & Hin). cbn in E. injection E as -> ->. rewrite Forall_forall in Ha.
    destruct (Ha _ Hin) as (_ & _ & _ & _ & E & _). exact E.
  - destruct Hin.
Qed.
Lemma attributed_build m l : Forall block_ok (vm_cells m) ->
  Forall (section_ok fits v51 (length (vm_points m)) (length (all_cells (vm_cells m)))) l ->
  build_mesh (Some (vm_dtype m, map (in_3d nk) (vm_points m))) (regroup (all_cells (vm_cells m))) (flat_map (section_arrays true) l)
    (vm_cdata (with_attributes nk m l)) [] = Ok (with_attributes nk m l).
Proof.
  intros Hb Hl. unfold build_mesh. cbn [of_option bind fst snd]. destruct (cells_dims _ (blocks_ok_cells _ Hb)) as (ds & ->). cbn [bind].
  assert (E1 : forallb (fun na : string * varr V => Nat.eqb (length (va_rows (snd na))) (length (map (in_3d nk) (vm_points m)))) (flat_map (section_arrays true) l) = true).
  { apply forallb_forall. intros [name a] Hin. destruct (arrays_length _ _ true _ _ _ Hl Hin) as (E & _). cbn [snd]. rewrite map_length, E. apply Nat.eqb_refl. }
  rewrite E1. cbn [negb]. cbn iota.
  match goal with |- (if negb ?x then _ else _) = _ => assert (E2 : x = true) end.
  { apply forallb_forall. intros nc Hin. unfold with_attributes in Hin. cbn [vm_cdata] in Hin.
    apply in_map_iff in Hin. destruct Hin as ([name a] & <- & Hin). cbn [snd vc_rows fst]. destruct (arrays_length _ _ false _ _ _ Hl Hin) as (El & _).
    set (bs := regroup (all_cells (vm_cells m))).
    assert (Em : map (@length _) (data_for bs (va_rows a)) = map blen bs) by (apply data_for_length; unfold bs; now rewrite regroup_cells).
    revert Em. generalize (data_for bs (va_rows a)) as rows. generalize bs. clear.
    intros bs. induction bs as [|b bs IH]; intros [|r rows] Em; try discriminate; [reflexivity|]. cbn [map] in Em. injection Em as E1 E2.
    specialize (IH _ E2). apply andb_true_iff in IH. destruct IH as [A B]. cbn [length combine forallb fst snd]. rewrite E1, Nat.eqb_refl.
    apply andb_true_iff. split; [exact A|exact B]. }
  rewrite E2. cbn [negb]. reflexivity.
Qed.
Lemma attributed_split m l sp : 
  Forall (section_ok fits v51 (length (vm_points m)) (length (all_cells (vm_cells m)))) l ->
  (all_cells (vm_cells m) <> [] -> sp <> []) ->
  (forall W (d : list W), length d = length (all_cells (vm_cells m)) -> pieces sp d = data_for (regroup (all_cells (vm_cells m))) d) ->
  split_data (Some sp) (flat_map (section_arrays false) l) = vm_cdata (with_attributes nk m l).
Proof.
  intros Hl Hne Hs. rewrite split_data_some.
  - unfold with_attributes. cbn [vm_cdata]. apply map_ext_in. intros [name a] Hin. cbn [fst snd]. f_equal. f_equal. apply Hs.
    destruct (arrays_length _ _ false _ _ _ Hl Hin) as (E & _). exact E.
  - destruct (flat_map (section_arrays false) l) as [|[name a] r] eqn:E; [now left|]. right. apply Hne.
    assert (Hin : In (name, a) (flat_map (section_arrays false) l)) by (rewrite E; now left).
    destruct (arrays_length _ _ false _ _ _ Hl Hin) as (_ & H1). intros E0. rewrite E0 in H1. cbn in H1. lia.
Qed.
Lemma attributed_sect m wb conn off types l :
  sect wb info0 (VInfo "CELL_TYPES" (Some (Z.of_nat (total_cells (vm_cells m)))) (Some "UNSTRUCTURED_GRID"%string) None []
      (Some (vm_dtype m, map (in_3d nk) (vm_points m))) (Some conn) (if v51 then off else None) (Some types) [] [] []) ->
  Forall (section_ok fits v51 (length (vm_points m)) (length (all_cells (vm_cells m)))) l ->
  NoDup (dkeys (flat_map (section_arrays true) l)) -> NoDup (dkeys (flat_map (section_arrays false) l)) ->
  exists i, sect (wb ++ concat (map (section_lines p v51 (length (vm_points m)) (length (all_cells (vm_cells m)))) l)) info0 i /\
    check_mesh nk i = Ok (Some (vm_dtype m, map (in_3d nk) (vm_points m)), conn, types) /\ i_offs i = (if v51 then off else None) /\
    i_pdata i = flat_map (section_arrays true) l /\ i_craw i = flat_map (section_arrays false) l /\ i_fdata i = [] /\
    i_type i = Some "UNSTRUCTURED_GRID"%string /\ i_items i <> None.
Proof.
  intros Sb Hl N1 N2. set (i0 := VInfo "CELL_TYPES" _ _ _ _ _ _ _ _ _ _ _) in Sb.
  destruct (sections_sect _ _ l "UNSTRUCTURED_GRID" (or_introl eq_refl) i0 eq_refl Hl) as (i & Si & (G1 & G2 & G3 & G4 & G5 & G6 & G7 & G8) & P & C & I).
  exists i. split; [eapply (sect_app nk p good hard v51); eauto|]. split.
  { rewrite (check_mesh_same nk i i0) by auto. reflexivity. }
  split; [exact G6|]. unfold i0 in P, C. cbn [i_pdata i_craw] in P, C. rewrite !dupdate_nil in * by auto. repeat split; auto. apply I. discriminate.
Qed.
End Attr.

Section Files.
Context {V : Type} (nk : nums V) (p : vport V) (fits : string -> V -> Prop) (good hard : list (vunt p) -> Prop).
Hypothesis Hp : vport_ok p fits good hard.
(** A line that the reader does not understand *)
Lemma read_stops ver v51 title w i ts h tl rest e : (v51 = false /\ In ver old_versions) \/ (v51 = true /\ ver = "5.1"%string) -> one_line title ->
  sect nk p good hard v51 w info0 i -> ts = h :: tl -> forallb word ts = true -> good rest -> smem (Abaqus.upper h) vtk_sections = false ->
  read_subsection nk p v51 i (Abaqus.upper h) ts rest = Err e ->
  read_vtk nk p (vtk_header p ver title ++ w ++ v_line p (row_line ts) ++ rest) = Err e.
Proof.
  intros Hv Ht Sw Ets W Hg Hsm Her.
  set (s1 := v_line p (row_line ts) ++ rest).
  assert (Gs : good s1) by (now apply (line_good p fits good hard Hp)).
  assert (Hs : hard s1) by (apply (line_hard p fits good hard Hp); [exact W|subst ts; discriminate]).
  destruct (Sw s1 Gs Hs) as (G & Hh & L).
  assert (M1 : one_line (v_mode p)) by (destruct (l_mode _ _ _ _ Hp) as [E|E]; rewrite E; reflexivity).
  assert (F : one_line ("# vtk DataFile Version " ++ ver)%string /\ startswith (strip ("# vtk DataFile Version " ++ ver)%string) "# vtk DataFile Version" = true /\
     String.eqb (substring 23 (String.length (strip ("# vtk DataFile Version " ++ ver)%string) - 23) (strip ("# vtk DataFile Version " ++ ver)%string)) "5.1" = v51).
  { destruct Hv as [[-> Hin] | [-> ->]]; [|repeat split].
    repeat (destruct Hin as [<-|Hin]; [repeat split|]). destruct Hin. }
  destruct F as (F1 & X1 & X2).
  assert (G1 : good (v_line p (v_mode p) ++ w ++ s1)) by (apply (l_line_good _ _ _ _ Hp); auto).
  assert (G2 : good (v_line p title ++ v_line p (v_mode p) ++ w ++ s1)) by (apply (l_line_good _ _ _ _ Hp); auto).
  unfold vtk_header. rewrite <- !app_assoc. unfold read_vtk, next_line. rewrite (l_next _ _ _ _ Hp) by auto. rewrite X1. cbn [negb]. cbn iota. rewrite X2.
  transitivity (read_body nk p v51 (v_line p title ++ v_line p (v_mode p) ++ w ++ s1)); [destruct v51; reflexivity|].
  unfold read_body, next_line. rewrite (l_next _ _ _ _ Hp) by auto. rewrite (l_next _ _ _ _ Hp) by auto.
  assert (M2 : smem (Abaqus.upper (strip (v_mode p))) ["ASCII"; "BINARY"]%string = true /\ String.eqb (Abaqus.upper (strip (v_mode p))) (v_mode p) = true)
    by (destruct (l_mode _ _ _ _ Hp) as [E|E]; rewrite E; split; reflexivity).
  destruct M2 as [M2 M3]. rewrite M2, M3. cbn [negb]. cbn iota.
  destruct (L (S (length (w ++ s1))) (Nat.lt_succ_diag_r _)) as ([|f] & Hf & E); [cbn in Hf; lia|]. rewrite E. cbn [read_loop].
  unfold s1. rewrite (l_next _ _ _ _ Hp) by (auto using one_line_row). unfold row_line. rewrite split_ws_join by auto. rewrite Ets in *. cbn zeta. rewrite Hsm, Her. reflexivity.
Qed.
Theorem attributes_42 m ver l : vtk_mesh nk fits false m -> Forall fixed_block (vm_cells m) -> one_line ("written by meshio v" ++ ver)%string ->
  vm_pdata m = [] -> vm_cdata m = [] -> sections_ok fits false m l ->
  exists s, write_vtk nk p false ver m = Ok s /\
    read_vtk nk p (add_sections p false s m l) = Ok (with_attributes nk m l).
Proof.
  intros H Hf Hv Ep0 Ec0 (Hl & N1 & N2). assert (Hb : Forall block_ok (vm_cells m)) by (eapply Forall_impl; [|exact Hf]; intros b Hb; now left).
  destruct (vtk42_roundtrip _ Hf) as (conn & types & sp & E1 & E2 & E3). rewrite write_cells_42_ok in E1 by auto. injection E1 as <- <-.
  assert (exists wc, write_cells_section_42 p (vm_cells m) = Ok wc) as (wc & Ew).
  { destruct (cells_sect_42 nk p fits good hard Hp false (vm_cells m) "" None None None [] None None None None [] [] [] eq_refl Hb (vk_index _ _ _ _ H) (vk_sizes _ _ _ _ H)) as (w & Ew & _). eauto. }
  destruct (base_sect nk p fits good hard Hp false m ver wc (flat_map enc42 (all_cells (vm_cells m))) None (map code_of (all_cells (vm_cells m))) Ep0 Ec0 H Ew) as (wb & Es & Sb).
  { intros. destruct (cells_sect_42 nk p fits good hard Hp false (vm_cells m) act it ty di nu pts co off0 tys pd cr fd eq_refl Hb (vk_index _ _ _ _ H) (vk_sizes _ _ _ _ H)) as (w & Ew2 & Sw).
    rewrite Ew in Ew2. injection Ew2 as <-. exact Sw. }
  destruct (attributed_sect nk p fits good hard Hp false m wb _ None _ l Sb Hl N1 N2) as (i & Si & C & O & P & Cr & Fd & _).
  eexists. split; [exact Es|]. unfold add_sections. rewrite <- app_assoc.
  assert (Hin : In "4.2"%string old_versions) by (right; right; right; right; now left). change (ver_of false) with "4.2"%string.
  rewrite (read_from_header nk p fits good hard Hp "4.2" false _ _ i (or_introl (conj eq_refl Hin)) Hv Si).
  rewrite C. cbn [bind]. rewrite E2. cbn [bind fst snd]. rewrite P, Cr, Fd.
  rewrite (attributed_split nk fits false m l sp Hl) by (auto; intros HL; eapply pieces_nonempty; eauto). now apply (attributed_build nk fits false).
Qed.
Theorem attributes_51 m ver l : vtk_mesh nk fits true m -> Forall block_ok (vm_cells m) -> Forall nonempty_block (vm_cells m) -> vm_cells m <> [] ->
  one_line ("written by meshio v" ++ ver)%string -> vm_pdata m = [] -> vm_cdata m = [] -> sections_ok fits true m l ->
  exists s, write_vtk nk p true ver m = Ok s /\
    read_vtk nk p (add_sections p true s m l) = Ok (with_attributes nk m l).
Proof.
  intros H Hb Hnb Hne Hv Ep0 Ec0 (Hl & N1 & N2). pose proof (blocks_ok_cells _ Hb) as HL.
  destruct (vtk_cells_from_data_ok (all_cells (vm_cells m)) HL (all_cells_ne _ Hne Hnb)) as (sp & E2 & E3).
  assert (exists wc, write_cells_section_51 p (vm_cells m) = Ok wc) as (wc & Ew).
  { destruct (cells_sect_51 nk p fits good hard Hp true (vm_cells m) "" None None None [] None None None None [] [] [] eq_refl Hb Hnb Hne (vk_index _ _ _ _ H) (vk_total _ _ _ _ H)) as (w & Ew & _). eauto. }
  destruct (base_sect nk p fits good hard Hp true m ver wc (flat_map Vtk51.enc (all_cells (vm_cells m))) (Some (ends 0 (all_cells (vm_cells m)))) (map code_of (all_cells (vm_cells m))) Ep0 Ec0 H Ew) as (wb & Es & Sb).
  { intros. destruct (cells_sect_51 nk p fits good hard Hp true (vm_cells m) act it ty di nu pts co off0 tys pd cr fd eq_refl Hb Hnb Hne (vk_index _ _ _ _ H) (vk_total _ _ _ _ H)) as (w & Ew2 & Sw).
    rewrite Ew in Ew2. injection Ew2 as <-. exact Sw. }
  destruct (attributed_sect nk p fits good hard Hp true m wb _ (Some (ends 0 (all_cells (vm_cells m)))) _ l Sb Hl N1 N2) as (i & Si & C & O & P & Cr & Fd & _).
  eexists. split; [exact Es|]. unfold add_sections. rewrite <- app_assoc.
  change (ver_of true) with "5.1"%string.
  rewrite (read_from_header nk p fits good hard Hp "5.1" true _ _ i (or_intror (conj eq_refl eq_refl)) Hv Si).
  rewrite C. cbn [bind]. rewrite O. cbn [of_option bind]. rewrite E2. cbn [bind fst snd]. rewrite P, Cr, Fd.
  rewrite (attributed_split nk fits true m l sp Hl) by (auto; intros _; eapply pieces_nonempty; eauto; apply all_cells_ne; auto). now apply (attributed_build nk fits true).
Qed.
Lemma base_51 m ver : vtk_mesh nk fits true m -> Forall block_ok (vm_cells m) -> Forall nonempty_block (vm_cells m) -> vm_cells m <> [] ->
  vm_pdata m = [] -> vm_cdata m = [] -> exists wb conn, write_vtk nk p true ver m = Ok (vtk_header p "5.1" ("written by meshio v" ++ ver)%string ++ wb) /\
  sect nk p good hard true wb info0 (VInfo "CELL_TYPES" (Some (Z.of_nat (total_cells (vm_cells m)))) (Some "UNSTRUCTURED_GRID"%string) None []
      (Some (vm_dtype m, map (in_3d nk) (vm_points m))) (Some conn) (Some (ends 0 (all_cells (vm_cells m)))) (Some (map code_of (all_cells (vm_cells m)))) [] [] []).
Proof.
  intros H Hb Hnb Hne Ep0 Ec0.
  assert (exists wc, write_cells_section_51 p (vm_cells m) = Ok wc) as (wc & Ew).
  { destruct (cells_sect_51 nk p fits good hard Hp true (vm_cells m) "" None None None [] None None None None [] [] [] eq_refl Hb Hnb Hne (vk_index _ _ _ _ H) (vk_total _ _ _ _ H)) as (w & Ew & _). eauto. }
  destruct (base_sect nk p fits good hard Hp true m ver wc (flat_map Vtk51.enc (all_cells (vm_cells m))) (Some (ends 0 (all_cells (vm_cells m)))) (map code_of (all_cells (vm_cells m))) Ep0 Ec0 H Ew) as (wb & Es & Sb).
  { intros. destruct (cells_sect_51 nk p fits good hard Hp true (vm_cells m) act it ty di nu pts co off0 tys pd cr fd eq_refl Hb Hnb Hne (vk_index _ _ _ _ H) (vk_total _ _ _ _ H)) as (w & Ew2 & Sw).
    rewrite Ew in Ew2. injection Ew2 as <-. exact Sw. }
  eauto.
Qed.
Theorem type_names_51 m ver l key name t more dt xs : vtk_mesh nk fits true m -> Forall block_ok (vm_cells m) -> Forall nonempty_block (vm_cells m) -> vm_cells m <> [] ->
  one_line ("written by meshio v" ++ ver)%string -> vm_pdata m = [] -> vm_cdata m = [] -> sections_ok fits true m l ->
  In key ["SCALARS"; "VECTORS"; "TENSORS"]%string -> word name = true -> In t standard_type_names -> more = [] \/ more = ["1"%string] -> Forall (fits dt) xs ->
  exists s, write_vtk nk p true ver m = Ok s /\
    read_vtk nk p (add_sections p true s m l ++ v_line p (row_line (key :: name :: t :: more)) ++ v_put p dt xs) = Err KeyError.
Proof.
  intros H Hb Hnb Hne Hv Ep0 Ec0 (Hl & N1 & N2) Hk Hw Ht Hmore Hx. destruct (base_51 m ver H Hb Hnb Hne Ep0 Ec0) as (wb & conn & Es & Sb).
  destruct (attributed_sect nk p fits good hard Hp true m wb _ (Some (ends 0 (all_cells (vm_cells m)))) _ l Sb Hl N1 N2) as (i & Si & _ & _ & _ & _ & _ & Ty & It).
  eexists. split; [exact Es|]. unfold add_sections. rewrite <- !app_assoc. rewrite (app_assoc wb).
  assert (Gx : good (v_put p dt xs)) by (rewrite <- (app_nil_r (v_put p dt xs)); apply (l_put_good _ _ _ _ Hp); [exact Hx|apply (l_good_nil _ _ _ _ Hp)]).
  assert (Wt : word t = true /\ dtype_of true (lower t) = Err KeyError) by (clear - Ht; unfold standard_type_names in Ht; cbn [In] in Ht; repeat (destruct Ht as [<-|Ht]; [split; reflexivity|]); destruct Ht).
  destruct Wt as (Wt & Et).
  assert (W : forallb word (key :: name :: t :: more) = true).
  { cbn [forallb]. rewrite Hw, Wt. clear - Hk Hmore. cbn [In] in Hk. repeat (destruct Hk as [<-|Hk]; [destruct Hmore as [-> | ->]; reflexivity|]). destruct Hk. }
  eapply (read_stops "5.1" true) with (h := key); [now right|exact Hv|exact Si|reflexivity|exact W|exact Gx| |].
  { clear - Hk. cbn [In] in Hk. repeat (destruct Hk as [<-|Hk]; [reflexivity|]). destruct Hk. }
  destruct (i_items i) as [n|] eqn:Ei; [|congruence]. unfold read_subsection. rewrite Ty. cbn [of_option bind].
  change (dget "UNSTRUCTURED_GRID" vtk_dataset_infos) with (Some (@nil string)). cbn [of_option bind smem existsb]. rewrite Ei.
  cbn [In] in Hk. repeat destruct Hk as [<-|Hk]; [| | |destruct Hk].
  - change (String.eqb (Abaqus.upper "SCALARS") "SCALARS") with true. cbn iota. cbn [of_option bind]. unfold read_scalars, tok. cbn [nth_error of_option bind].
    destruct Hmore as [-> | ->]; cbn [nth_error].
    + cbn [bind]. change (negb ((0 <? 1) && (1 <? 5))%Z) with false. cbn iota. rewrite Et. reflexivity.
    + change (parse_Z "1") with (Some 1%Z). cbn [of_option bind]. change (negb ((0 <? 1) && (1 <? 5))%Z) with false. cbn iota. rewrite Et. reflexivity.
  - change (String.eqb (Abaqus.upper "VECTORS") "SCALARS") with false. change (String.eqb (Abaqus.upper "VECTORS") "VECTORS") with true. cbn iota. cbn [of_option bind].
    unfold read_field, tok. cbn [nth_error of_option bind]. rewrite Et. reflexivity.
  - change (String.eqb (Abaqus.upper "TENSORS") "SCALARS") with false. change (String.eqb (Abaqus.upper "TENSORS") "VECTORS") with false. change (String.eqb (Abaqus.upper "TENSORS") "TENSORS") with true. cbn iota. cbn [of_option bind].
    unfold read_field, tok. cbn [nth_error of_option bind]. rewrite Et. reflexivity.
Qed.
Theorem other_attributes_51 m ver l key args dt xs : vtk_mesh nk fits true m -> Forall block_ok (vm_cells m) -> Forall nonempty_block (vm_cells m) -> vm_cells m <> [] ->
  one_line ("written by meshio v" ++ ver)%string -> vm_pdata m = [] -> vm_cdata m = [] -> sections_ok fits true m l ->
  In key other_attributes -> forallb word args = true -> Forall (fits dt) xs ->
  exists s, write_vtk nk p true ver m = Ok s /\
    read_vtk nk p (add_sections p true s m l ++ v_line p (row_line (key :: args)) ++ v_put p dt xs) = Err ReadError.
Proof.
  intros H Hb Hnb Hne Hv Ep0 Ec0 (Hl & N1 & N2) Hk Ha Hx. destruct (base_51 m ver H Hb Hnb Hne Ep0 Ec0) as (wb & conn & Es & Sb).
  destruct (attributed_sect nk p fits good hard Hp true m wb _ (Some (ends 0 (all_cells (vm_cells m)))) _ l Sb Hl N1 N2) as (i & Si & _ & _ & _ & _ & _ & Ty & It).
  eexists. split; [exact Es|]. unfold add_sections. rewrite <- !app_assoc. rewrite (app_assoc wb).
  assert (Gx : good (v_put p dt xs)) by (rewrite <- (app_nil_r (v_put p dt xs)); apply (l_put_good _ _ _ _ Hp); [exact Hx|apply (l_good_nil _ _ _ _ Hp)]).
  assert (K : word key = true /\ smem (Abaqus.upper key) vtk_sections = false /\ String.eqb (Abaqus.upper key) "SCALARS" = false /\
     String.eqb (Abaqus.upper key) "VECTORS" = false /\ String.eqb (Abaqus.upper key) "TENSORS" = false /\ String.eqb (Abaqus.upper key) "FIELD" = false).
  { clear - Hk. unfold other_attributes in Hk. cbn [In] in Hk. repeat (destruct Hk as [<-|Hk]; [repeat split|]). destruct Hk. }
  destruct K as (Wk & K1 & K2 & K3 & K4 & K5).
  assert (W : forallb word (key :: args) = true) by (cbn [forallb]; now rewrite Wk, Ha).
  eapply (read_stops "5.1" true) with (h := key); [now right|exact Hv|exact Si|reflexivity|exact W|exact Gx|exact K1|].
  unfold read_subsection. rewrite Ty. cbn [of_option bind].
  change (dget "UNSTRUCTURED_GRID" vtk_dataset_infos) with (Some (@nil string)). cbn [of_option bind smem existsb]. rewrite K2, K3, K4, K5. reflexivity.
Qed.
End Files.
