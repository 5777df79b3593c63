(** Abaqus files that include other files. *)
From Verif.Lib Require Import Base Facts Facts2 Text TextFacts Lines LinesFacts.
From Verif.Model Require Import Core Abaqus.
From Verif.Spec Require Import Core Abaqus AbaqusInclude.
From Verif.Proofs Require Import AbaqusLines Abaqus.
From Coq Require Import ZifyBool ZifyNat.
Local Arguments keyword : simpl never.

(** ** Lines *)
Lemma lstrip_spaces n s : lstrip (spaces n ++ s) = lstrip s.
Proof.
  unfold spaces. induction n as [|n IH]; [reflexivity|]. destruct n as [|n]; [reflexivity|]. cbn [repeat String.concat] in *. cbn [append lstrip is_space].
  change (lstrip (String " " ((String.concat "" (" " :: repeat " " n)) ++ s)) = lstrip s). cbn [lstrip]. change (is_space " ") with true. cbv iota. exact IH.
Qed.
Lemma strip_spaces n s : strip s = s -> strip (spaces n ++ s) = s.
Proof. intros H. unfold strip. rewrite lstrip_spaces. exact H. Qed.
Lemma char_in_spaces c n s : Ascii.eqb c " " = false -> char_in c (spaces n ++ s) = char_in c s.
Proof.
  intros Hc. unfold spaces. induction n as [|n IH]; [reflexivity|]. destruct n as [|n]; cbn [repeat String.concat append char_in] in *; [now rewrite Hc|].
  rewrite Hc. exact IH.
Qed.
Lemma str_app_assoc' a b c : ((a ++ b) ++ c)%string = (a ++ (b ++ c))%string.
Proof. induction a as [|x a IH]; [reflexivity|]. cbn [append]. now rewrite IH. Qed.
Lemma include_keyword a b name : keyword (include_line a b name) = "INCLUDE".
Proof. unfold keyword, include_line. change ("*INCLUDE," ++ ?x)%string with ("*INCLUDE" ++ String "," x)%string. rewrite split_char_app by reflexivity. reflexivity. Qed.
Lemma include_name a b name : file_name name -> strip (last (split_char "=" (include_line a b name)) "") = name.
Proof.
  intros [H1 H2]. unfold include_line.
  assert (E : ("*INCLUDE," ++ spaces a ++ "INPUT=" ++ spaces b ++ name)%string = (("*INCLUDE," ++ spaces a ++ "INPUT") ++ String "=" (spaces b ++ name))%string).
  { rewrite !str_app_assoc'. reflexivity. }
  rewrite E, split_char_app.
  - rewrite split_char_single by (rewrite char_in_spaces by reflexivity; exact H2). cbn [last]. now apply strip_spaces.
  - change (char_in "=" ("*INCLUDE," ++ spaces a ++ "INPUT")) with (char_in "=" (spaces a ++ "INPUT")). rewrite char_in_spaces by reflexivity. reflexivity.
Qed.

(** ** A file without the files that it includes *)
Lemma span_data_app ls rest : fresh rest -> span_data (ls ++ rest) = (fst (span_data ls), snd (span_data ls) ++ rest).
Proof.
  intros Hf. induction ls as [|l ls IH]; cbn [app span_data].
  - destruct rest as [|l rest]; [reflexivity|]. cbn [span_data]. cbn in Hf. now rewrite Hf.
  - destruct (startswith l "*"); [reflexivity|]. rewrite IH. reflexivity.
Qed.

Section Include.
Context {fl : floats}.
Implicit Types (st : abq_state fl) (m : abq_mesh fl).
Definition no_file (_ : string) : result (abq_mesh fl) := Err OSError.

Lemma section_any include st line data r : section no_file st line data = Ok r -> section include st line data = Ok r.
Proof.
  unfold section. repeat match goal with |- context [String.eqb (keyword line) ?k] => destruct (String.eqb (keyword line) k); [exact (fun H => H) || discriminate|] end. auto.
Qed.
Lemma loop_app include rest : fresh rest -> forall fuel st own st', abq_loop no_file fuel st own = Ok st' ->
  forall fuel2, length (own ++ rest) <= fuel2 -> exists fuel3, length rest <= fuel3 /\ abq_loop include fuel2 st (own ++ rest) = abq_loop include fuel3 st' rest.
Proof.
  intros Hf. induction fuel as [|fuel IH]; intros st own st' H fuel2 H2.
  - destruct own as [|l own]; [|discriminate]. injection H as <-. exists fuel2. auto.
  - destruct own as [|l own]; [injection H as <-; exists fuel2; auto|]. cbn [abq_loop] in H. cbn [app length] in H2. destruct fuel2 as [|fuel2]; [lia|].
    cbn [app abq_loop]. destruct (startswith l "**"); [apply (IH _ _ _ H); lia|].
    destruct (section no_file st l (fst (span_data own))) as [r|] eqn:E; [|discriminate]. cbn [bind] in H.
    rewrite span_data_app by auto. cbn [fst snd]. rewrite (section_any include _ _ _ _ E). cbn [bind].
    assert (G : (if snd r then snd (span_data own) ++ rest else own ++ rest) = (if snd r then snd (span_data own) else own) ++ rest) by now destruct (snd r).
    rewrite G. apply (IH _ _ _ H). rewrite app_length. assert (length (snd (span_data own)) <= length own).
    { clear. induction own as [|a own IH]; cbn [span_data]; [cbn; lia|]. destruct (startswith a "*"); cbn [snd length]; lia. }
    rewrite app_length in H2. destruct (snd r); lia.
Qed.
Definition inv st : Prop := NoDup (dkeys (as_psets st)) /\ length (as_eorder st) <= length (as_cells st).
Lemma section_inv st line data r : section no_file st line data = Ok r -> inv st -> inv (fst r).
Proof.
  intros H [Hn Hl]. unfold section in H.
  destruct (String.eqb (keyword line) "NODE"). { destruct (read_nodes data); [|discriminate]. injection H as <-. now split. }
  destruct (String.eqb (keyword line) "ELEMENT").
  { destruct (of_option _ _); [|discriminate]. cbn [bind] in H. destruct (param_map _ _); [|discriminate]. cbn [bind] in H. destruct (read_cells _ _ _); [|discriminate]. cbn [bind] in H.
    destruct (dget "ELSET" _); injection H as <-; (split; [exact Hn|]); cbn [fst as_eorder as_cells]; rewrite !app_length; cbn [length]; lia. }
  destruct (String.eqb (keyword line) "NSET").
  { destruct (param_map _ _); [|discriminate]. cbn [bind] in H. destruct (read_set _ _); [|discriminate]. cbn [bind] in H. destruct (mapM _ _); [|discriminate]. cbn [bind] in H.
    injection H as <-. split; [cbn [fst as_psets]; now apply NoDup_dset|exact Hl]. }
  destruct (String.eqb (keyword line) "ELSET").
  { destruct (param_map _ _); [|discriminate]. cbn [bind] in H. destruct (read_set _ _) as [p|]; [|discriminate]. cbn [bind] in H.
    match type of H with bind ?x _ = _ => destruct x; [|discriminate] end. injection H as <-. now split. }
  destruct (String.eqb (keyword line) "INCLUDE"); [discriminate|]. injection H as <-. now split.
Qed.
Lemma loop_inv fuel : forall st ls st', abq_loop no_file fuel st ls = Ok st' -> inv st -> inv st'.
Proof.
  induction fuel as [|fuel IH]; intros st ls st' H Hn; destruct ls as [|l ls]; try discriminate; try (injection H as <-; exact Hn). cbn [abq_loop] in H.
  destruct (startswith l "**"); [eauto|]. destruct (section _ _ _ _) eqn:E; [|discriminate]. cbn [bind] in H. eapply IH; [exact H|]. eapply section_inv; eauto.
Qed.

(** ** The files that are included *)
Definition add m st : abq_state fl :=
  AbqState (as_points st ++ ab_points m) (as_ids st)
    (as_cells st ++ map (fun b => Block (btype b) (map (move (length (as_points st))) (bdata b))) (ab_cells m))
    (as_cell_ids st)
    (fold_left (fun d kv => dset (fst kv) (move (length (as_points st)) (snd kv)) d) (ab_psets m) (as_psets st))
    (as_csets st) (as_esets st) (as_eorder st).
Lemma merge_add d m st : part_ok d m -> Forall (fun p => length p = d) (as_points st) ->
  (match ab_points m with [] => Ok st | _ => merge m st end) = Ok (add m st).
Proof.
  intros [H1 H2] H3. destruct (ab_points m) as [|p ps] eqn:E.
  - destruct (H2 eq_refl) as [E1 E2]. unfold add. rewrite E, E1, E2. cbn [map fold_left]. rewrite !app_nil_r. now destruct st.
  - unfold merge. rewrite E. assert (G : (match as_points st with [] => Ok tt | q :: _ => if Nat.eqb (length q) (length p) then Ok tt else Err ValueError end) = Ok tt).
    { destruct (as_points st) as [|q qs]; [reflexivity|]. inversion H1; inversion H3; subst. replace (length p) with (length q) by congruence. now rewrite Nat.eqb_refl. }
    rewrite G. cbn [bind]. unfold add, move. now rewrite E.
Qed.
Lemma reach_include include st a b name m rest d : file_name name -> include name = Ok m -> part_ok d m -> Forall (fun p => length p = d) (as_points st) ->
  reach include st (include_line a b name :: rest) (add m st) rest.
Proof.
  intros Hn Hi Hm Hs fuel Hf. cbn [length] in Hf. destruct fuel as [|fuel]; [lia|]. exists fuel. split; [lia|]. cbn [abq_loop].
  change (startswith (include_line a b name) "**") with false. cbv iota. unfold section. rewrite include_keyword. cbn [String.eqb Ascii.eqb Bool.eqb]. cbv iota beta.
  rewrite include_name, Hi by auto. cbn [bind]. rewrite (merge_add d) by auto. reflexivity.
Qed.
Lemma add_dim d m st : part_ok d m -> Forall (fun p => length p = d) (as_points st) -> Forall (fun p => length p = d) (as_points (add m st)).
Proof. intros [H _] H2. cbn [add as_points]. apply Forall_app. auto. Qed.
Lemma reach_includes include d tail names : includes tail names -> forall st parts, Forall2 (fun name m => include name = Ok m) names parts ->
  Forall (part_ok d) parts -> Forall (fun p => length p = d) (as_points st) ->
  reach include st tail (fold_left (fun st m => add m st) parts st) [].
Proof.
  induction 1 as [|l ls names Hl _ IH|a b name ls names Hn _ IH]; intros st parts Hp Hok Hd.
  - inversion Hp; subst. apply reach_refl.
  - eapply reach_trans; [apply reach_skip; exact Hl|]. now apply IH.
  - inversion Hp as [|? m ? parts' Hm Hp']; subst. inversion Hok; subst. cbn [fold_left]. eapply reach_trans; [eapply reach_include; eauto|]. apply IH; auto. now apply add_dim.
Qed.

Lemma fold_dset_moved n (l : dict (list Z)) : forall d k, NoDup (dkeys l) ->
  dget k (fold_left (fun d kv => dset (fst kv) (move n (snd kv)) d) l d) = match dget k l with Some v => Some (move n v) | None => dget k d end.
Proof.
  induction l as [|[k' v] l IH]; intros d k Hn; [reflexivity|]. cbn [fold_left dget fst snd]. cbn [dkeys map fst] in Hn. inversion Hn as [|? ? Hk Hn']; subst. rewrite IH by exact Hn'.
  destruct (String.eqb_spec k k') as [->|Hne].
  - assert (E : dget k' l = None) by (apply dget_None; exact Hk). rewrite E. apply dget_dset_same.
  - destruct (dget k l); [reflexivity|]. now apply dget_dset_other.
Qed.
Lemma fold_dset_nodup n (l : dict (list Z)) : forall d, NoDup (dkeys d) -> NoDup (dkeys (fold_left (fun d kv => dset (fst kv) (move n (snd kv)) d) l d)).
Proof. induction l as [|[k' v] l IH]; intros d Hn; [exact Hn|]. cbn [fold_left]. apply IH. now apply NoDup_dset. Qed.

Lemma adds parts : forall st, Forall (fun m => NoDup (dkeys (ab_psets m))) parts -> NoDup (dkeys (as_psets st)) ->
  let st' := fold_left (fun st m => add m st) parts st in
  as_points st' = as_points st ++ flat_map ab_points parts /\
  as_cells st' = as_cells st ++ placed (length (as_points st)) parts /\
  (forall k, dget k (as_psets st') = match last_set k (length (as_points st)) parts with Some v => Some v | None => dget k (as_psets st) end) /\
  NoDup (dkeys (as_psets st')) /\ as_csets st' = as_csets st /\ as_esets st' = as_esets st /\ as_eorder st' = as_eorder st.
Proof.
  induction parts as [|m parts IH]; intros st Hp Hs; cbn [fold_left flat_map placed last_set].
  - rewrite !app_nil_r. repeat split; auto.
  - inversion Hp as [|? ? H1 H2]; subst. assert (G : NoDup (dkeys (as_psets (add m st)))) by (apply fold_dset_nodup; exact Hs).
    destruct (IH (add m st) H2 G) as (E1 & E2 & E3 & E4 & E5 & E6 & E7). cbv zeta. rewrite E1, E2, E5, E6, E7. cbn [add as_points as_cells as_csets as_esets as_eorder].
    rewrite app_length, <- !app_assoc. split; [reflexivity|]. split; [reflexivity|]. split; [|auto]. intros k. rewrite E3. cbn [add as_points as_psets]. rewrite app_length.
    destruct (last_set k _ parts); [reflexivity|]. rewrite fold_dset_moved by exact H1. destruct (dget k (ab_psets m)); reflexivity.
Qed.

(** ** Cell sets *)
Lemma padded_refl d : same_sets d d.
Proof. induction d; constructor; auto. split; [reflexivity|]. exists 0. cbn. now rewrite app_nil_r. Qed.
Lemma padded_dset k v n old new : same_sets old new -> same_sets (dset k v old) (dset k (v ++ repeat (Idx []) n) new).
Proof.
  induction 1 as [|[k1 v1] [k2 v2] old new [E1 E2] H IH]; cbn [dset].
  - constructor; [|constructor]. cbn [fst snd]. eauto.
  - cbn [fst] in E1. subst k2. destruct (String.eqb k k1); constructor; cbn [fst snd] in *; eauto. 
Qed.
Lemma padded_dget k old new : same_sets old new -> match dget k old with Some v => exists n, dget k new = Some (v ++ repeat (Idx []) n) | None => dget k new = None end.
Proof.
  induction 1 as [|[k1 v1] [k2 v2] old new [E1 E2] H IH]; cbn [dget]; [reflexivity|]. cbn [fst snd] in *. subst k2. destruct (String.eqb k k1); [|exact IH]. destruct E2 as (n & ->). eauto.
Qed.
Lemma upd_app {A} (v : A) l e : forall i, i < length l -> upd i v (l ++ e) = upd i v l ++ e.
Proof. induction l as [|x l IH]; intros [|i] H; cbn [length app upd] in *; try lia; auto. now rewrite IH by lia. Qed.
Lemma element_sets_padded order nb x es : forall i old new r, i + length order <= nb -> element_sets i order nb es old = Ok r -> same_sets old new ->
  exists r', element_sets i order (nb + x) es new = Ok r' /\ same_sets r r'.
Proof.
  induction order as [|name order IH]; intros i old new r Hi H Hp; cbn [element_sets] in *.
  - injection H as <-. eauto.
  - destruct (dget name es) as [v|]; [|discriminate]. cbn [of_option bind length] in *. pose proof (padded_dget name _ _ Hp) as G.
    destruct (dget name old) as [l|].
    + destruct G as (n & ->). destruct (Nat.ltb_spec i (length l)) as [Hl|]; [|discriminate]. cbn [bind] in *.
      destruct (Nat.ltb_spec i (length (l ++ repeat (Idx []) n))) as [_|Hc]; [|rewrite app_length in Hc; lia]. cbn [bind]. rewrite upd_app by exact Hl.
      eapply IH; [|exact H|now apply padded_dset]. lia.
    + rewrite G. cbn [bind] in *. rewrite seq_app, map_app. eapply IH; [|exact H|].
      * lia.
      * assert (E : map (fun ic => Idx (if Nat.eqb i ic then v else [])) (seq (0 + nb) x) = repeat (Idx []) x).
        { assert (K : forall b, i < b -> map (fun ic => Idx (if Nat.eqb i ic then v else [])) (seq b x) = repeat (Idx []) x); [|apply K; lia].
          clear. induction x as [|x IH]; intros b Hb; [reflexivity|]. cbn [seq map repeat]. rewrite IH by lia. destruct (Nat.eqb_spec i b); [lia|reflexivity]. }
        rewrite E. now apply padded_dset.
Qed.

(** ** One file *)
Lemma read_file include own tail names m0 parts d : fresh tail -> includes tail names -> read_abaqus no_file own = Ok m0 ->
  Forall2 (fun name m => include name = Ok m) names parts -> Forall (part_ok d) (m0 :: parts) -> Forall (fun m => NoDup (dkeys (ab_psets m))) parts ->
  exists m, read_abaqus include (own ++ tail) = Ok m /\ ab_points m = flat_map ab_points (m0 :: parts) /\ ab_cells m = placed 0 (m0 :: parts) /\
    (forall k, dget k (ab_psets m) = last_set k 0 (m0 :: parts)) /\ NoDup (dkeys (ab_psets m)) /\ same_sets (ab_csets m0) (ab_csets m).
Proof.
  intros Hf Hi H0 Hp Hok Hn. unfold read_abaqus in H0. destruct (abq_loop no_file _ _ own) as [st|] eqn:E; [|discriminate]. cbn [bind] in H0.
  destruct (element_sets _ _ _ _ _) as [cs|] eqn:Ec in H0; [|discriminate]. injection H0 as <-. inversion Hok as [|? ? H1 H2]; subst.
  assert (Hinv : inv st). { eapply loop_inv; [exact E|]. split; [constructor|cbn; lia]. }
  destruct Hinv as [I1 I2]. destruct H1 as [D1 _]. cbn [ab_points] in D1.
  assert (HR : reach include abq_init (own ++ tail) (fold_left (fun st m => add m st) parts st) []).
  { eapply reach_trans; [|eapply reach_includes; eauto]. intros fuel Hfuel. eapply loop_app; eauto. }
  apply reach_end in HR. unfold read_abaqus. rewrite HR. cbn [bind].
  destruct (adds parts st Hn I1) as (E1 & E2 & E3 & E4 & E5 & E6 & E7). set (st' := fold_left _ parts st) in *. rewrite E5, E6, E7, E2, app_length.
  destruct (element_sets_padded (as_eorder st) (length (as_cells st)) (length (placed (length (as_points st)) parts)) (as_esets st) 0 (as_csets st) (as_csets st) cs I2 Ec (padded_refl _)) as (cs' & -> & Hpad).
  cbn [bind]. eexists. split; [reflexivity|]. cbn [ab_points ab_cells ab_psets ab_csets flat_map placed last_set].
  split; [exact E1|]. split.
  { f_equal. clear. assert (G : forall l, map (move 0) l = l). { induction l as [|c l IH]; [reflexivity|]. cbn [map]. rewrite IH. f_equal. unfold move. rewrite <- (map_id c) at 2. apply map_ext. intros. lia. }
    generalize (as_cells st). intros bs. induction bs as [|[t dt] bs IH]; [reflexivity|]. cbn [map btype bdata]. rewrite G. f_equal. exact IH. }
  split; [|auto]. intros k. rewrite E3. cbn [Nat.add]. destruct (last_set k _ parts); [reflexivity|]. destruct (dget k (as_psets st)) as [v|]; [|reflexivity]. cbn [option_map]. f_equal.
  unfold move. rewrite <- (map_id v) at 1. apply map_ext. intros. lia.
Qed.

(** ** Files within files *)
Definition stands_for m (ms : list (abq_mesh fl)) : Prop :=
  ab_points m = flat_map ab_points ms /\ ab_cells m = placed 0 ms /\ (forall k, dget k (ab_psets m) = last_set k 0 ms) /\ NoDup (dkeys (ab_psets m)).
Lemma move_move a b l : move a (move b l) = move (a + b) l.
Proof. unfold move. rewrite map_map. apply map_ext. intros. lia. Qed.
Lemma placed_move a ms : forall b, map (fun bl => Block (btype bl) (map (move a) (bdata bl))) (placed b ms) = placed (a + b) (ms : list (abq_mesh fl)).
Proof.
  induction ms as [|m ms IH]; intros b; [reflexivity|]. cbn [placed]. rewrite map_app, IH, map_map. rewrite <- Nat.add_assoc. f_equal. apply map_ext. intros bl. cbn [btype bdata]. f_equal.
  rewrite map_map. apply map_ext. intros c. apply move_move.
Qed.
Lemma last_set_move k a ms : forall b, option_map (move a) (last_set k b (ms : list (abq_mesh fl))) = last_set k (a + b) ms.
Proof.
  induction ms as [|m ms IH]; intros b; [reflexivity|]. cbn [last_set]. rewrite <- Nat.add_assoc, <- IH. destruct (last_set k (b + _) ms); [reflexivity|]. cbn [option_map].
  destruct (dget k (ab_psets m)); [|reflexivity]. cbn [option_map]. now rewrite move_move.
Qed.
Lemma placed_app ms1 ms2 : forall n, placed n (ms1 ++ ms2 : list (abq_mesh fl)) = placed n ms1 ++ placed (n + length (flat_map ab_points ms1)) ms2.
Proof.
  induction ms1 as [|m ms IH]; intros n; cbn [app placed flat_map length]; [now rewrite Nat.add_0_r|]. rewrite IH, app_length, <- app_assoc. do 3 f_equal. lia.
Qed.
Lemma last_set_app k ms1 ms2 : forall n, last_set k n (ms1 ++ ms2 : list (abq_mesh fl)) =
  match last_set k (n + length (flat_map ab_points ms1)) ms2 with Some v => Some v | None => last_set k n ms1 end.
Proof.
  induction ms1 as [|m ms IH]; intros n; cbn [app last_set flat_map length]; [rewrite Nat.add_0_r; now destruct (last_set k n ms2)|].
  rewrite IH, app_length, Nat.add_assoc. destruct (last_set k _ ms2); reflexivity.
Qed.
Lemma stands_concat parts mss : Forall2 stands_for parts mss -> flat_map ab_points parts = flat_map ab_points (concat mss) /\
  (forall n, placed n parts = placed n (concat mss)) /\ (forall k n, last_set k n parts = last_set k n (concat mss)).
Proof.
  induction 1 as [|m ms parts mss (E1 & E2 & E3 & _) H (I1 & I2 & I3)]; [auto|]. cbn [flat_map concat placed last_set]. rewrite flat_map_app, <- E1, <- I1. split; [reflexivity|]. split.
  - intros n. rewrite placed_app, <- E1, E2, placed_move, Nat.add_0_r, I2. reflexivity.
  - intros k n. rewrite last_set_app, <- E1, <- I3, E3, last_set_move, Nat.add_0_r. reflexivity.
Qed.
Lemma stands_part_ok d m ms : Forall (part_ok d) ms -> stands_for m ms -> part_ok d m.
Proof.
  intros H (E1 & E2 & E3 & _). split.
  - rewrite E1. clear - H. induction H as [|x ms [Hx _] _ IH]; cbn [flat_map]; [constructor|]. apply Forall_app. auto.
  - intros E. rewrite E1 in E. assert (G : (forall n, placed n ms = []) /\ (forall k n, last_set k n ms = None)).
    { clear E1 E2 E3. induction H as [|x ms [_ Hx] _ IH]; [auto|]. cbn [flat_map] in E. apply app_eq_nil in E. destruct E as [Ea Eb]. destruct (Hx Ea) as [C1 C2]. destruct (IH Eb) as [G1 G2].
      cbn [placed last_set]. split; intros; rewrite ?C1, ?C2, ?G1, ?G2; reflexivity. }
    destruct G as [G1 G2]. rewrite E2, G1. split; [reflexivity|]. destruct (ab_psets m) as [|[k v] l]; [reflexivity|]. specialize (E3 k). rewrite G2 in E3. cbn [dget] in E3. now rewrite String.eqb_refl in E3.
Qed.

Lemma dir_part_spec dir base : char_in "/" base = false -> dir_part (dir ++ "/" ++ base) = (dir ++ "/")%string.
Proof.
  intros Hb. assert (G : forall s, char_in "/" s = false -> dir_part s = ""%string).
  { intros [|a s]; [reflexivity|]. cbn [char_in dir_part]. intros H. apply orb_false_iff in H. destruct H as [H1 H2]. rewrite Ascii.eqb_sym, H1, H2. reflexivity. }
  induction dir as [|a dir IH]; cbn [append dir_part].
  - cbn [Ascii.eqb]. change (Ascii.eqb "/" "/" || char_in "/" base) with true. cbv iota. now rewrite (G base Hb).
  - assert (K : char_in "/" (dir ++ "/" ++ base) = true). { clear. induction dir as [|a dir IH]; [reflexivity|]. cbn [append char_in]. cbn [append] in IH. rewrite IH. apply orb_true_r. }
    cbn [append] in K. rewrite K, orb_true_r. f_equal. exact IH.
Qed.
Lemma dir_part_none s : char_in "/" s = false -> dir_part s = ""%string.
Proof. destruct s as [|a s]; [reflexivity|]. cbn [char_in dir_part]. intros H. apply orb_false_iff in H. destruct H as [H1 H2]. rewrite Ascii.eqb_sym, H1, H2. reflexivity. Qed.
Lemma located_path fs cur name p : located fs cur name p -> include_path fs cur name = p.
Proof.
  unfold located, include_path. intros [[H ->]|(H & Hs & Hp)]; [destruct (fs name); congruence|]. rewrite H, Hs.
  destruct Hp as [[Hc ->]|(dir & base & -> & Hb & ->)]; [now rewrite dir_part_none|]. rewrite dir_part_spec by exact Hb. now rewrite str_app_assoc'.
Qed.

Theorem read_assembly fs d depth : forall path ms, assembly depth fs path ms -> Forall (part_ok d) ms ->
  exists m m0 ms', ms = m0 :: ms' /\ read_abaqus_file depth fs path = Ok m /\ stands_for m ms /\ same_sets (ab_csets m0) (ab_csets m).
Proof.
  induction depth as [|depth IH]; intros path ms H Hok; [destruct H|]. cbn [assembly] in H. destruct H as (own & tail & names & m0 & mss & E & Ht & Hi & H0 & Hs & ->).
  inversion Hok as [|? ? Hm0 Hms]; subst.
  set (include := fun name => read_abaqus_file (fl := fl) depth fs (include_path fs path name)).
  assert (G : exists parts, Forall2 (fun name m => include name = Ok m) names parts /\ Forall2 stands_for parts mss /\ Forall (part_ok d) parts).
  { clear - IH Hs Hms. induction Hs as [|name sub names mss (p & Hp & Ha) _ IHs]; [exists []; auto|]. cbn [concat] in Hms. apply Forall_app in Hms. destruct Hms as [K1 K2].
    destruct (IHs K2) as (parts & P1 & P2 & P3). destruct (IH p sub Ha K1) as (m & _ & _ & _ & Er & Hst & _).
    exists (m :: parts). split; [constructor; auto; unfold include; now rewrite (located_path _ _ _ _ Hp)|]. split; constructor; auto. exact (stands_part_ok d m sub K1 Hst). }
  destruct G as (parts & P1 & P2 & P3).
  assert (Hn : Forall (fun m => NoDup (dkeys (ab_psets m))) parts). { clear - P2. induction P2 as [|m ms parts mss (_ & _ & _ & Hn) _ IH]; constructor; auto. }
  destruct (read_file include own tail names m0 parts d Ht Hi H0 P1 (Forall_cons _ Hm0 P3) Hn) as (m & R & R1 & R2 & R3 & R4 & R5).
  exists m, m0, (concat mss). split; [reflexivity|]. split; [cbn [read_abaqus_file]; rewrite E; exact R|]. split; [|exact R5].
  destruct (stands_concat parts mss P2) as (S1 & S2 & S3). split; [rewrite R1; cbn [flat_map]; now rewrite S1|]. split; [rewrite R2; cbn [placed]; now rewrite S2|].
  split; [|exact R4]. intros k. rewrite R3. cbn [last_set]. now rewrite S3.
Qed.

Lemma assembly_S fs depth : forall path (ms : list (abq_mesh fl)), assembly depth fs path ms -> assembly (S depth) fs path ms.
Proof.
  induction depth as [|depth IH]; intros path ms H; [destruct H|]. destruct H as (own & tail & names & m0 & mss & E & Ht & Hi & H0 & Hs & ->).
  exists own, tail, names, m0, mss. repeat (split; [assumption|]). split; [|reflexivity]. clear - IH Hs.
  induction Hs as [|name sub names mss (p & Hp & Ha) _ IHs]; constructor; eauto.
Qed.
Lemma assembly_le fs a b path (ms : list (abq_mesh fl)) : a <= b -> assembly a fs path ms -> assembly b fs path ms.
Proof. induction 1; [auto|]. intros Ha. apply assembly_S. auto. Qed.
Lemma adds_ids parts : forall st, as_ids (fold_left (fun st m => add m st) parts st) = as_ids st.
Proof. induction parts as [|m parts IH]; intros st; [reflexivity|]. cbn [fold_left]. now rewrite IH. Qed.
Lemma reach_includes_rest include d tail names : includes tail names -> forall st parts rest, Forall2 (fun name m => include name = Ok m) names parts ->
  Forall (part_ok d) parts -> Forall (fun p => length p = d) (as_points st) ->
  reach include st (tail ++ rest) (fold_left (fun st m => add m st) parts st) rest.
Proof.
  induction 1 as [|l ls names Hl _ IH|a b name ls names Hn _ IH]; intros st parts rest Hp Hok Hd; cbn [app].
  - inversion Hp; subst. apply reach_refl.
  - eapply reach_trans; [apply reach_skip; exact Hl|]. now apply IH.
  - inversion Hp as [|? m ? parts' Hm Hp']; subst. inversion Hok; subst. cbn [fold_left]. eapply reach_trans; [eapply reach_include; eauto|]. apply IH; auto. now apply add_dim.
Qed.
Lemma elements_apart include d tail names parts t rest : includes tail names -> Forall2 (fun name m => include name = Ok m) names parts -> Forall (part_ok d) parts ->
  read_abaqus include (tail ++ ("*ELEMENT, TYPE=" ++ t)%string :: rest) = Err ReadError.
Proof.
  intros Hi Hp Hok. pose proof (reach_includes_rest include d tail names Hi abq_init parts (("*ELEMENT, TYPE=" ++ t)%string :: rest) Hp Hok (Forall_nil _)) as H.
  unfold read_abaqus. destruct (H _ (le_n _)) as (f & Hf & ->). cbn [length] in Hf. destruct f as [|f]; [lia|]. cbn [abq_loop].
  change (startswith ("*ELEMENT, TYPE=" ++ t) "**") with false. cbv iota. unfold section. rewrite adds_ids.
  assert (E : keyword ("*ELEMENT, TYPE=" ++ t) = "ELEMENT").
  { unfold keyword. change ("*ELEMENT, TYPE=" ++ t)%string with ("*ELEMENT" ++ String "," (" TYPE=" ++ t))%string. rewrite split_char_app by reflexivity. reflexivity. }
  rewrite E. reflexivity.
Qed.

(** ** Coordinates *)
Lemma coords_moved pre pts post c : Forall (fun i => 0 <= i < Z.of_nat (length pts))%Z c -> coords (pre ++ pts ++ post) (move (length pre) c) = coords (fl := fl) pts c.
Proof.
  induction 1 as [|i c Hi _ IH]; [reflexivity|]. unfold coords, move in *. cbn [map]. rewrite IH. f_equal.
  rewrite nth_error_app2 by lia. replace (Z.to_nat (i + Z.of_nat (length pre)) - length pre) with (Z.to_nat i) by lia. apply nth_error_app1. lia.
Qed.
Lemma shapes_placed (ms : list (abq_mesh fl)) : forall pre : list (list fl), Forall indices_ok ms ->
  map (fun b => (btype b, map (coords (pre ++ flat_map ab_points ms)) (bdata b))) (placed (length pre) ms) = flat_map (shapes (fl := fl)) ms.
Proof.
  induction ms as [|m ms IH]; intros pre H; [reflexivity|]. inversion H as [|? ? [H1 _] H2]; subst. cbn [placed flat_map]. rewrite map_app. f_equal.
  - rewrite map_map. unfold shapes. apply map_ext_in. intros b Hb. cbn [btype bdata]. f_equal. rewrite map_map. apply map_ext_in. intros c Hc. apply coords_moved.
    rewrite Forall_forall in H1. specialize (H1 _ Hb). rewrite Forall_forall in H1. now apply H1.
  - rewrite <- app_length, app_assoc. now apply IH.
Qed.
Lemma last_some_app {A} (l : list (option A)) : forall a, fold_left (fun a b => match b with Some _ => b | None => a end) l a = match last_some l with Some v => Some v | None => a end.
Proof.
  unfold last_some. induction l as [|x l IH]; intros a; [reflexivity|]. cbn [fold_left]. rewrite IH. rewrite (IH (match x with Some _ => x | None => None end)). destruct (fold_left _ l None); [reflexivity|]. now destruct x.
Qed.
Lemma sets_placed k (ms : list (abq_mesh fl)) : forall pre : list (list fl), Forall indices_ok ms ->
  option_map (coords (pre ++ flat_map ab_points ms)) (last_set k (length pre) ms) = last_some (map (fun m => set_coords m k) ms).
Proof.
  induction ms as [|m ms IH]; intros pre H; [reflexivity|]. inversion H as [|? ? [_ H1] H2]; subst. cbn [last_set map flat_map]. unfold last_some. cbn [fold_left]. rewrite last_some_app.
  rewrite <- IH with (pre := pre ++ ab_points m) by exact H2. rewrite app_length, app_assoc. destruct (last_set k _ ms) as [v|]; [reflexivity|]. cbn [option_map]. rewrite <- app_assoc.
  unfold set_coords. destruct (dget k (ab_psets m)) as [v|] eqn:E; [|reflexivity]. cbn [option_map]. f_equal. apply coords_moved. apply dget_In in E. rewrite Forall_forall in H1. exact (H1 _ E).
Qed.
End Include.
