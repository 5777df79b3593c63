(** ASCII Medit files. *)
From Verif.Lib Require Import Base Facts Facts2 Text TextFacts Lines LinesFacts Bytes BytesFacts File.
From Verif.Model Require Import Core Medit.
From Verif.Spec Require Import Core Medit.
From Verif.Proofs Require Import Gmsh22 Blocks Vtu Off Medit.
From Coq Require Import ZifyBool ZifyNat.
Local Arguments str_of_nat : simpl never.
Local Arguments str_of_Z : simpl never.
Local Arguments String.eqb : simpl never.

Lemma drop_blank_length ls : length (drop_blank ls) <= length ls.
Proof. induction ls as [|l ls IH]; cbn; [lia|]. destruct (blank l); cbn; lia. Qed.
Lemma take_tokens_pos_length n ls : forall ts r, take_tokens_pos n ls = Some (ts, r) -> length r <= length ls.
Proof.
  revert n; induction ls as [|l ls IH]; intros n ts r; cbn [take_tokens_pos]; [discriminate|].
  destruct (Nat.ltb _ _).
  - destruct (take_tokens_pos _ ls) as [[ts' r']|] eqn:E; [|discriminate]. intros [= _ <-]. apply IH in E. cbn. lia.
  - intros [= _ <-]. pose proof (drop_blank_length (join " " (skipn n (split_ws l)) :: ls)). cbn in *. exact H.
Qed.
Lemma take_tokens_length n ls ts r : take_tokens n ls = Some (ts, r) -> length r <= length ls.
Proof. destruct n; cbn [take_tokens]; [intros [= _ <-]; lia|apply take_tokens_pos_length]. Qed.

Section Ascii.
Context {fl : floats}.
Hypothesis fok : floats_ok fl.
Variable to_int : fl -> Z.
Notation reads := (label_reads to_int).

Lemma counted_length {A} (parse : list string -> result (list A)) k ls r : counted parse k ls = Ok r -> length (snd r) <= length ls.
Proof.
  unfold counted. destruct (int_line (line1 ls)); [cbn [bind]|discriminate]. destruct (_ <? _)%Z; [discriminate|].
  destruct (take_tokens _ _) as [[ts r']|] eqn:E; [cbn [of_option bind]|discriminate]. destruct (parse _); [cbn [bind]|discriminate]. intros [= <-]. apply take_tokens_length in E. cbn [fst snd].
  destruct ls; cbn in *; lia.
Qed.
Lemma skipn_le {A} n (l : list A) : length (skipn n l) <= length l.
Proof. rewrite skipn_length. lia. Qed.
Lemma tl_le {A} (l : list A) : length (tl l) <= length l.
Proof. destruct l; cbn; lia. Qed.
Lemma asc_step_length st items ls r : asc_step to_int st items ls = Ok r -> length (snd r) <= length ls.
Proof.
  unfold asc_step. intros H.
  repeat match type of H with
  | (if ?c then _ else _) = _ => destruct c; try discriminate H
  | Ok _ = Ok _ => injection H as <-; cbn [snd]; first [lia | apply tl_le | idtac]
  | (match ?x with _ => _ end) = _ => destruct x eqn:?; try discriminate H
  | bind (counted ?p ?k ls) _ = _ => let E := fresh in destruct (counted p k ls) eqn:E; [cbn [bind] in H; apply counted_length in E|discriminate H]
  | bind (int_line ?l) _ = _ => destruct (int_line l); [cbn [bind] in H|discriminate H]
  | bind ?x _ = _ => destruct x; [cbn [bind] in H|discriminate H]
  end; auto.
  pose proof (skipn_le (Z.to_nat a) (tl ls)). pose proof (tl_le ls). lia.
Qed.

Lemma loop_fuel f1 : forall f2 st ls, length ls <= f1 -> length ls <= f2 -> asc_loop to_int f1 st ls = asc_loop to_int f2 st ls.
Proof.
  induction f1 as [|f1 IH]; intros [|f2] st [|l ls] H1 H2; cbn [length] in *; try lia; try reflexivity.
  cbn [asc_loop]. destruct (_ || _); [apply IH; lia|]. destruct (asc_step to_int st (split_ws l) ls) as [r|] eqn:E; [|reflexivity].
  cbn [bind]. apply asc_step_length in E. apply IH; lia.
Qed.
Definition run (st : asc_state (fl := fl)) (ls : list string) : result (asc_state (fl := fl)) := asc_loop to_int (length ls) st ls.
Lemma run_note st l ls : blank l || startswith (strip l) "#" = true -> run st (l :: ls) = run st ls.
Proof. intros H. unfold run. cbn [length asc_loop]. now rewrite H. Qed.
Lemma run_drop st ls : run st (drop_blank ls) = run st ls.
Proof.
  induction ls as [|l ls IH]; [reflexivity|]. cbn [drop_blank]. destruct (blank l) eqn:E; [|reflexivity]. rewrite IH. symmetry. apply run_note. now rewrite E.
Qed.
Lemma run_same st ls ls' : drop_blank ls = drop_blank ls' -> run st ls = run st ls'.
Proof. intros H. rewrite <- (run_drop st ls), H. apply run_drop. Qed.
Lemma run_step st l ls r : blank l || startswith (strip l) "#" = false -> asc_step to_int st (split_ws l) ls = Ok r -> run st (l :: ls) = run (fst r) (snd r).
Proof.
  intros H E. unfold run. cbn [length asc_loop]. rewrite H, E. cbn [bind]. apply asc_step_length in E. apply loop_fuel; lia.
Qed.

Lemma counted_ok {A} (parse : list string -> result (list A)) k rows (vals : list (list A)) rest : 0 < k ->
  Forall (fun r => forallb word r = true /\ length r = k) rows -> parse (concat rows) = Ok (concat vals) -> Forall (fun r => length r = k) vals ->
  exists rest', counted parse k (str_of_nat (length rows) :: map row_line rows ++ rest) = Ok (vals, rest') /\ drop_blank rest' = drop_blank rest.
Proof.
  intros Hk Hr Hp Hv. unfold counted. cbn [line1 hd tl]. rewrite int_line_nat. cbn [bind]. destruct (Z.ltb_spec (Z.of_nat (length rows)) 0); [lia|]. rewrite Nat2Z.id.
  destruct (take_rows_loose rows rest (map row_line rows ++ rest) (length rows * k) eq_refl) as (rest' & E & Hd).
  - eapply Forall_impl; [|exact Hr]. cbn. intros r [H1 H2]. split; [exact H1|]. destruct r; [cbn in H2; lia|discriminate].
  - rewrite (concat_uniform_length k); [lia|]. eapply Forall_impl; [|exact Hr]. cbn. tauto.
  - exists rest'. split; [|exact Hd]. rewrite E. cbn [of_option bind fst snd]. rewrite Hp. cbn [bind]. rewrite chunks_concat by auto. reflexivity.
Qed.

Definition st_after (st : asc_state (fl := fl)) (p : medit_part fl) : asc_state :=
  match p with
  | AVertices ps => AscState (ac_dim st) (ac_dtype st) (Some (map fst ps, map snd ps)) (ac_cells st) (ac_refs st)
  | ACells _ t cs => AscState (ac_dim st) (ac_dtype st) (ac_points st) (ac_cells st ++ [Block t (map fst cs)]) (ac_refs st ++ [map snd cs])
  | _ => st
  end.

Lemma parse_vertices (ps : list (list fl * Z)) dim : Forall (fun pl => length (fst pl) = dim /\ reads (snd pl)) ps ->
  exists vals : list (list fl), parse_floats (concat (map (fun pl => map ffmt (fst pl) ++ [str_of_Z (snd pl)]) ps)) = Ok (concat vals) /\
    Forall (fun r => length r = dim + 1) vals /\ map (firstn dim) vals = map fst ps /\ map (fun v => to_int (nth dim v fzero)) vals = map snd ps.
Proof.
  induction 1 as [|[xs z] ps [Hl (v & Hp & Hv)] H (vals & E1 & E2 & E3 & E4)]; [exists []; repeat split; constructor|]. cbn [fst snd] in *.
  exists ((xs ++ [v]) :: vals). cbn [map concat fst snd]. split; [|split; [|split]].
  - unfold parse_floats in *. apply mapM_app; [|exact E1]. apply mapM_app; [exact (parse_floats_ok xs fok)|]. cbn [mapM]. rewrite Hp. reflexivity.
  - constructor; [rewrite app_length; cbn; lia|exact E2].
  - rewrite firstn_exact by auto. now rewrite E3.
  - rewrite app_nth2, Hl, Nat.sub_diag by lia. cbn [nth]. now rewrite Hv, E4.
Qed.

Lemma run_part st p rest dim : part_ok reads dim p -> 0 < dim -> ac_dim st = Z.of_nat dim -> ac_dtype st = true ->
  run st (part_lines p ++ rest) = run (st_after st p) rest.
Proof.
  intros Hp Hd Hdim Hdt. destruct p as [ps|w t cs|w rows|w ls|l].
  - cbn [part_ok part_lines app] in *. destruct (parse_vertices ps dim Hp) as (vals & E1 & E2 & E3 & E4).
    set (rows := map (fun pl : list fl * Z => map ffmt (fst pl) ++ [str_of_Z (snd pl)]) ps) in *.
    destruct (counted_ok (parse_floats (fl := fl)) (dim + 1) rows vals rest ltac:(lia)) as (rest' & E & Hrest); auto.
    { apply Forall_map. eapply Forall_impl; [|exact Hp]. cbn beta. intros pl [Hl _]. rewrite forallb_app, words_floats by auto. cbn. rewrite word_str_of_Z, app_length, map_length. cbn. split; [reflexivity|lia]. }
    assert (El : length rows = length ps) by apply map_length.
    rewrite (run_step st "Vertices" _ (AscState (ac_dim st) (ac_dtype st) (Some (map fst ps, map snd ps)) (ac_cells st) (ac_refs st), rest')).
    + cbn [fst snd st_after]. now apply run_same.
    + reflexivity.
    + unfold asc_step. replace (split_ws "Vertices") with ["Vertices"] by reflexivity. cbn [hd].
      replace (isalpha "Vertices") with true by reflexivity. cbn [negb].
      replace (String.eqb "Vertices" "MeshVersionFormatted") with false by reflexivity. replace (String.eqb "Vertices" "Dimension") with false by reflexivity.
      rewrite String.eqb_refl. rewrite Hdim, Hdt. destruct (Z.leb_spec (Z.of_nat dim) 0); [lia|]. cbn [negb]. rewrite Nat2Z.id.
      rewrite <- El. rewrite <- (map_map (fun pl : list fl * Z => map ffmt (fst pl) ++ [str_of_Z (snd pl)]) row_line). fold rows. rewrite E. cbn [bind fst snd]. now rewrite E3, E4.
  - cbn [part_ok part_lines app] in *. destruct Hp as (Ht & Hw & Hc).
    assert (Hk : exists n, dget w medit_names = Some (t, n) /\ medit_nodes t = n /\ split_ws w = [w] /\ isalpha w = true /\ blank w || startswith (strip w) "#" = false /\
      smem w ["MeshVersionFormatted"; "Dimension"; "Vertices"] = false).
    { destruct Hw as [-> | [-> ->]]; [|exists 8; repeat split; reflexivity].
      apply type_cases in Ht. cbn [In] in Ht. repeat match goal with H : _ \/ _ |- _ => destruct H as [<-|H] end; try contradiction; eexists; (split; [vm_compute; reflexivity|repeat split; reflexivity]). }
    destruct Hk as (n & Hk1 & Hk2 & Hk3 & Hk4 & Hk5 & Hk6).
    set (rows := map (fun cl : cell * Z => map str_of_Z (map (fun i => i + 1)%Z (fst cl) ++ [snd cl])) cs) in *.
    set (vals := map (fun cl : cell * Z => map (fun i => i + 1)%Z (fst cl) ++ [snd cl]) cs).
    destruct (counted_ok parse_ints (n + 1) rows vals rest ltac:(lia)) as (rest' & E & Hrest).
    { apply Forall_map. eapply Forall_impl; [|exact Hc]. cbn beta. intros cl Hl. rewrite words_ints, map_length, app_length, map_length. cbn. split; [reflexivity|lia]. }
    { unfold rows, vals. rewrite <- (map_map (fun cl : cell * Z => map (fun i => i + 1)%Z (fst cl) ++ [snd cl]) (map str_of_Z)). rewrite concat_map_map || rewrite <- concat_map. apply parse_ints_ok. }
    { apply Forall_map. eapply Forall_impl; [|exact Hc]. cbn beta. intros cl Hl. rewrite app_length, map_length. cbn. lia. }
    assert (El : length rows = length cs) by apply map_length.
    rewrite (run_step st w _ (st_after st (ACells w t cs), rest')).
    + cbn [fst snd]. now apply run_same.
    + exact Hk5.
    + unfold asc_step. rewrite Hk3. cbn [hd]. rewrite Hk4. cbn [negb]. unfold smem in Hk6. cbn [existsb] in Hk6. rewrite !orb_false_iff in Hk6. destruct Hk6 as (-> & -> & -> & _). rewrite Hk1.
      rewrite <- El. rewrite <- (map_map (fun cl : cell * Z => map str_of_Z (map (fun i => i + 1)%Z (fst cl) ++ [snd cl])) row_line). fold rows. rewrite E. cbn [bind fst snd].
      destruct (cells_back cs n) as [B1 B2]; [eapply Forall_impl; [|exact Hc]; cbn; intros; congruence|]. unfold vals. now rewrite B1, B2.
  - cbn [part_ok part_lines app] in *. destruct Hp as (k & Hk & Hr).
    destruct (counted_ok parse_ints k (map (map str_of_Z) rows) rows rest) as (rest' & E & Hrest).
    { cbn [In number_words] in Hk. repeat match goal with H : _ \/ _ |- _ => destruct H as [Hk|H] end; try contradiction; injection Hk as _ <-; lia. }
    { apply Forall_map. eapply Forall_impl; [|exact Hr]. cbn beta. intros r Hl. now rewrite words_ints, map_length. }
    { rewrite <- concat_map. apply parse_ints_ok. }
    { exact Hr. }
    rewrite map_length, map_map in E.
    rewrite (run_step st w _ (st, rest')); [cbn [fst snd st_after]; now apply run_same|..].
    + cbn [In number_words] in Hk. repeat match goal with H : _ \/ _ |- _ => destruct H as [Hk|H] end; try contradiction; injection Hk as <- <-; reflexivity.
    + cbn [In number_words] in Hk. repeat match goal with H : _ \/ _ |- _ => destruct H as [Hk|H] end; try contradiction; injection Hk as <- <-;
        (unfold asc_step; match goal with |- context[split_ws ?w] => replace (split_ws w) with [w] by reflexivity end; cbn [hd];
         repeat match goal with |- context[if ?c then _ else _] => let b := eval vm_compute in c in first [constr_eq b true | constr_eq b false]; replace c with b by (vm_compute; reflexivity); cbv iota end;
         match goal with |- context[dget ?w ?d] => replace (dget w d) with (@None (string * nat)) by reflexivity end; cbv iota;
         repeat match goal with |- context[if ?c then _ else _] => let b := eval vm_compute in c in first [constr_eq b true | constr_eq b false]; replace c with b by (vm_compute; reflexivity); cbv iota end;
         rewrite E; reflexivity).
  - cbn [part_ok part_lines app] in *. 
    rewrite (run_step st w _ (st, rest)); [reflexivity|..].
    + cbn [In line_words] in Hp. repeat match goal with H : _ \/ _ |- _ => destruct H as [<-|H] end; try contradiction; reflexivity.
    + cbn [In line_words] in Hp. repeat match goal with H : _ \/ _ |- _ => destruct H as [<-|H] end; try contradiction;
        (unfold asc_step; match goal with |- context[split_ws ?w] => replace (split_ws w) with [w] by reflexivity end; cbn [hd];
         repeat match goal with |- context[if ?c then _ else _] => let b := eval vm_compute in c in first [constr_eq b true | constr_eq b false]; replace c with b by (vm_compute; reflexivity); cbv iota end;
         match goal with |- context[dget ?w ?d] => replace (dget w d) with (@None (string * nat)) by reflexivity end; cbv iota;
         repeat match goal with |- context[if ?c then _ else _] => let b := eval vm_compute in c in first [constr_eq b true | constr_eq b false]; replace c with b by (vm_compute; reflexivity); cbv iota end;
         cbn [line1 hd tl]; rewrite int_line_nat; cbn [bind]; rewrite Nat2Z.id, skipn_exact by reflexivity; reflexivity).
  - cbn [part_ok part_lines app st_after] in *. apply run_note. destruct Hp as [-> | [l' Hl]]; [reflexivity|]. apply orb_true_iff. right. unfold strip. rewrite Hl.
    cbn [rstrip]. destruct (rstrip l'); reflexivity.
Qed.

Lemma run_parts parts : forall st rest dim, Forall (part_ok reads dim) parts -> 0 < dim -> ac_dim st = Z.of_nat dim -> ac_dtype st = true ->
  run st (flat_map part_lines parts ++ rest) = run (fold_left st_after parts st) rest.
Proof.
  induction parts as [|p parts IH]; intros st rest dim H Hd H1 H2; [reflexivity|]. inversion H as [|? ? Hp H']; subst. cbn [flat_map fold_left]. rewrite <- app_assoc.
  rewrite (run_part st p _ dim) by auto. apply IH with (dim := dim); auto; destruct p; auto.
Qed.
Lemma fold_parts parts st : ac_cells (fold_left st_after parts st) = ac_cells st ++ part_blocks parts /\
  ac_refs (fold_left st_after parts st) = ac_refs st ++ part_refs parts /\
  (forallb no_verts parts = true -> ac_points (fold_left st_after parts st) = ac_points st).
Proof.
  revert st; induction parts as [|s parts IH]; intros st; cbn [fold_left]; [cbn; now rewrite !app_nil_r|].
  destruct (IH (st_after st s)) as (-> & -> & H3). destruct s; cbn [st_after ac_cells ac_refs ac_points part_blocks part_refs flat_map app forallb no_verts andb] in *;
    rewrite <- ?app_assoc; repeat split; auto; discriminate.
Qed.
Definition notes (p : medit_part fl) : bool := match p with ANote _ => true | _ => false end.

Theorem read_ascii version dim pre ps post tail :
  In version ["0"; "1"; "2"] -> 0 < dim -> Forall (part_ok reads dim) (pre ++ AVertices ps :: post) -> forallb no_verts post = true ->
  (tail = [] \/ tail = ["End"]) ->
  read_medit_ascii (fl := fl) to_int ([row_line ["MeshVersionFormatted"; version]; row_line ["Dimension"; str_of_nat dim]] ++
     flat_map part_lines (pre ++ AVertices ps :: post) ++ tail) =
  Ok (MeditOut (map fst ps) (part_blocks (pre ++ post)) (Some (map snd ps)) (part_refs (pre ++ post))).
Proof.
  intros Hv Hd Hp Hno Ht. unfold read_medit_ascii. set (body := flat_map part_lines _). cbn [app].
  match goal with |- context[asc_loop to_int (length ?l) ?s ?l] => change (asc_loop to_int (length l) s l) with (run s l) end.
  rewrite (run_step _ (row_line ["MeshVersionFormatted"; version]) _ (AscState 0 true None [] [], row_line ["Dimension"; str_of_nat dim] :: body ++ tail)).
  2:{ destruct Hv as [<-|[<-|[<-|[]]]]; reflexivity. }
  2:{ destruct Hv as [<-|[<-|[<-|[]]]]; reflexivity. }
  cbn [fst snd].
  assert (Hws : forallb word ["Dimension"; str_of_nat dim] = true) by (cbn [forallb]; rewrite word_str_of_nat; reflexivity).
  rewrite (run_step _ (row_line ["Dimension"; str_of_nat dim]) _ (AscState (Z.of_nat dim) true None [] [], body ++ tail)).
  2:{ rewrite blank_row by (auto; discriminate). rewrite strip_row by auto. reflexivity. }
  2:{ unfold asc_step, row_line. rewrite split_ws_join by auto. cbn [hd]. change (isalpha "Dimension") with true. cbn [negb].
      change (String.eqb "Dimension" "MeshVersionFormatted") with false. rewrite String.eqb_refl. cbv iota. rewrite str_of_nat_Z, parse_Z_str_of_Z. reflexivity. }
  cbn [fst snd]. unfold body. rewrite (run_parts _ _ _ dim) by auto.
  assert (E : forall st, run st tail = Ok st) by (intros st; destruct Ht as [-> | ->]; reflexivity). rewrite E. cbn [bind].
  rewrite fold_left_app. cbn [fold_left].
  destruct (fold_parts post (st_after (fold_left st_after pre (AscState (Z.of_nat dim) true None [] [])) (AVertices ps))) as (-> & -> & H3). rewrite (H3 Hno). cbn [st_after ac_points ac_cells ac_refs].
  destruct (fold_parts pre (AscState (Z.of_nat dim) true None [] [])) as (-> & -> & _). cbn [ac_cells ac_refs app].
  unfold part_blocks, part_refs. now rewrite !flat_map_app.
Qed.

(** ** Writing *)
Definition block_parts (l : list (block * list Z)) : list (medit_part fl) :=
  flat_map (fun bl => [ANote ""; ACells (medit_word (btype (fst bl))) (btype (fst bl)) (combine (bdata (fst bl)) (snd bl))]) l.
Lemma asc_blocks_ok (m : medit_in fl) key bs : forall refs i,
  map (@length Z) refs = map blen bs ->
  (forall j b r, nth_error bs j = Some b -> nth_error refs j = Some r -> cell_labels m key (i + j) (blen b) = Ok r) ->
  asc_blocks (fl := fl) m key i bs = Ok (flat_map part_lines (block_parts (filter (fun bl => medit_type (btype (fst bl))) (combine bs refs))) ++ [""; "End"]).
Proof.
  induction bs as [|b bs IH]; intros refs i Hl Hc; [reflexivity|]. destruct refs as [|r refs]; [discriminate|]. cbn [map] in Hl. injection Hl as Hl0 Hl.
  cbn [asc_blocks combine filter fst].
  assert (Hc' : forall j b r, nth_error bs j = Some b -> nth_error refs j = Some r -> cell_labels m key (S i + j) (blen b) = Ok r).
  { intros j b' r' H1 H2. specialize (Hc (S j) b' r' H1 H2). now rewrite Nat.add_succ_r in Hc. }
  destruct (medit_type (btype b)) eqn:Et.
  - assert (Ek : dget (btype b) names_from_meshio = Some (medit_word (btype b))).
    { apply type_cases in Et. cbn [In] in Et. repeat match goal with H : _ \/ _ |- _ => destruct H as [<-|H] end; try contradiction; reflexivity. }
    rewrite Ek. specialize (Hc 0 b r eq_refl eq_refl). rewrite Nat.add_0_r in Hc. rewrite Hc. cbn [bind]. rewrite (IH refs) by auto. cbn [bind].
    unfold block_parts. cbn [flat_map app fst snd part_lines]. rewrite combine_length, Hl0. unfold blen. rewrite Nat.min_id. rewrite <- !app_assoc. reflexivity.
  - assert (Ek : dget (btype b) names_from_meshio = None).
    { destruct (dget (btype b) names_from_meshio) eqn:E; [|reflexivity]. exfalso. apply dget_In in E. unfold names_from_meshio in E. cbn [In] in E.
      repeat match goal with H : _ \/ _ |- _ => destruct H as [E|H] end; try contradiction; injection E as Eb _; rewrite <- Eb in Et; discriminate. }
    rewrite Ek. apply IH; auto.
Qed.
Lemma block_parts_ok dim l : Forall (fun bl => medit_type (btype (fst bl)) = true /\ Forall (fun c => length c = medit_nodes (btype (fst bl))) (bdata (fst bl)) /\ length (snd bl) = blen (fst bl)) l ->
  Forall (part_ok reads dim) (block_parts l) /\ part_blocks (block_parts l) = map fst l /\ part_refs (block_parts l) = map snd l /\ forallb no_verts (block_parts l) = true.
Proof.
  induction 1 as [|[b ls] l (Ht & Hw & Hl) H (E1 & E2 & E3 & E4)]; [repeat split; constructor|]. cbn [fst snd] in *.
  unfold block_parts, part_blocks, part_refs in *. cbn [flat_map app map fst snd forallb no_verts andb]. rewrite E2, E3, E4, map_fst_combine, map_snd_combine by (unfold blen in Hl; congruence).
  destruct b as [t rows]; repeat split. cbn [btype bdata] in *. constructor; [left; reflexivity|]. constructor; [|exact E1]. cbn [part_ok]. split; [exact Ht|]. split; [now left|].
  apply Forall_forall. intros [c z] Hin. apply in_combine_l in Hin. rewrite Forall_forall in Hw. now apply Hw.
Qed.

Theorem ascii_roundtrip (m : medit_in fl) : medit_mesh m -> 0 < mi_dim m -> mi_dtype m <> OtherType -> Forall reads (point_refs m) ->
  exists file, write_medit_ascii (fl := fl) m = Ok file /\
    read_medit_ascii to_int file = Ok (MeditOut (mi_points m) (map fst (kept m)) (Some (point_refs m)) (map snd (kept m))).
Proof.
  intros Hm Hd Ht Hr. destruct (point_labels_ok m Hm) as [E1 Hl]. destruct (cell_labels_ok m Hm) as (key & E2 & Hl2 & Hc). pose proof (kept_ok m Hm) as Hk.
  destruct (block_parts_ok (mi_dim m) _ Hk) as (P1 & P2 & P3 & P4).
  assert (Ev : exists v, match mi_dtype m with F4 => Ok "1" | F8 => Ok "2" | OtherType => Err KeyError end = Ok v /\ In v ["0"; "1"; "2"]) by (destruct (mi_dtype m); [exists "1"|exists "2"|congruence]; cbn; auto).
  destruct Ev as (v & Ev & Hv). unfold write_medit_ascii. rewrite Ev, E1, E2. cbn [bind]. rewrite (asc_blocks_ok m key (mi_cells m) (cell_refs m)) by auto. cbn [bind].
  eexists. split; [reflexivity|]. fold (kept m).
  pose proof (read_ascii v (mi_dim m) [ANote ""] (combine (mi_points m) (point_refs m)) (block_parts (kept m) ++ [ANote ""]) ["End"] Hv Hd) as R.
  cbn [flat_map app] in R. rewrite flat_map_app in R. cbn [part_lines flat_map app] in R. rewrite combine_length, Hl, Nat.min_id in R.
  rewrite <- !app_assoc in R. cbn [app] in R |- *. rewrite R.
  - rewrite map_fst_combine, map_snd_combine by congruence. unfold part_blocks, part_refs in *. cbn [flat_map app]. rewrite !flat_map_app. cbn [flat_map app]. rewrite !app_nil_r. now rewrite P2, P3.
  - constructor; [left; reflexivity|]. constructor.
    + apply Forall_forall. intros [p z] Hin. pose proof (in_combine_l _ _ _ _ Hin). pose proof (in_combine_r _ _ _ _ Hin). pose proof (mm_points _ Hm) as Hp. rewrite Forall_forall in Hp, Hr. cbn [fst snd]. auto.
    + apply Forall_app. split; [exact P1|]. constructor; [left; reflexivity|constructor].
  - rewrite forallb_app, P4. reflexivity.
  - now right.
Qed.
End Ascii.
