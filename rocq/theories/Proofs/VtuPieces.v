(** Proofs about VTU files with several pieces (C71). *)
From Coq Require Import ZArith NArith List String Ascii Bool Lia.
From Verif.Lib Require Import Base Facts Facts2 Runs Text TextFacts Lines Bytes File.
From Verif.Model Require Import Core Vtk VtkFile Cxml VtuFile.
From Verif.Spec Require Import Core Blocks Vtk Cxml VtkFile VtuFile.
Import ListNotations.

Section Pieces.
Context {V : Type} (nk : unums V) (pk : packers) (native : bool).

Definition add_piece (a b : upiece (V := V)) : upiece :=
  UPiece (up_points a ++ up_points b) (up_cells a ++ up_cells b) (up_pdata a ++ up_pdata b) (up_craw a ++ up_craw b).
Lemma add_piece0 a : add_piece piece0 a = a.
Proof. now destruct a. Qed.
Lemma add_piece_assoc a b c : add_piece (add_piece a b) c = add_piece a (add_piece b c).
Proof. unfold add_piece. cbn. now rewrite !app_assoc. Qed.

Lemma piece_acc h acc e : read_piece nk pk h acc e = do u <- read_piece nk pk h piece0 e; Ok (add_piece acc u).
Proof.
  unfold read_piece. destruct (of_option KeyError (dget "NumberOfPoints" (xattrs e))) as [s|]; cbn [bind]; [|reflexivity].
  destruct (int_attr s) as [np|]; cbn [bind]; [|reflexivity].
  destruct (of_option KeyError (dget "NumberOfCells" (xattrs e))) as [s2|]; cbn [bind]; [|reflexivity].
  destruct (int_attr s2) as [nc|]; cbn [bind]; [|reflexivity].
  match goal with |- foldM ?F acc ?l = _ => set (G := F) end.
  assert (Hg : forall c a b, G (add_piece a b) c = do u <- G b c; Ok (add_piece a u)).
  { intros c a b. unfold G, add_piece.
    destruct (String.eqb (xtag c) "Points"); [destruct (read_points_elem nk pk h np c); cbn; [now rewrite app_assoc|reflexivity]|].
    destruct (String.eqb (xtag c) "Cells"); [destruct (read_cells_elem pk h nc c); cbn; [now rewrite app_assoc|reflexivity]|].
    destruct (String.eqb (xtag c) "PointData"); [destruct (read_point_data nk pk h (xchildren c)); cbn; [now rewrite app_assoc|reflexivity]|].
    destruct (String.eqb (xtag c) "CellData"); [destruct (read_cell_data nk pk h (xchildren c)); cbn; [now rewrite app_assoc|reflexivity]|]. reflexivity. }
  assert (Hf : forall l a b, foldM G (add_piece a b) l = do u <- foldM G b l; Ok (add_piece a u)).
  { induction l as [|c l IH]; intros a b; [reflexivity|]. cbn [foldM]. rewrite Hg. destruct (G b c) as [b'|]; cbn [bind]; [apply IH|reflexivity]. }
  specialize (Hf (xchildren e) acc piece0). rewrite <- Hf. f_equal. unfold add_piece, piece0. cbn. rewrite !app_nil_r. now destruct acc.
Qed.
Lemma pieces_fold h ps : forall acc, foldM (read_piece nk pk h) acc ps =
  do us <- mapM (read_piece nk pk h piece0) ps; Ok (fold_left add_piece us acc).
Proof.
  induction ps as [|p ps IH]; intros acc; [reflexivity|]. cbn [foldM mapM]. rewrite piece_acc.
  destruct (read_piece nk pk h piece0 p) as [u|]; cbn [bind]; [|reflexivity]. rewrite IH.
  destruct (mapM _ ps) as [us|]; reflexivity.
Qed.
Lemma fold_add us : forall acc, fold_left add_piece us acc =
  UPiece (up_points acc ++ flat_map up_points us) (up_cells acc ++ flat_map up_cells us) (up_pdata acc ++ flat_map up_pdata us)
         (up_craw acc ++ flat_map up_craw us).
Proof.
  induction us as [|u us IH]; intros acc; [cbn; rewrite !app_nil_r; now destruct acc|]. cbn [fold_left flat_map]. rewrite IH. unfold add_piece. cbn.
  now rewrite <- !app_assoc.
Qed.

(** The last piece decides *)
Lemma foldM_last {A B} (F : B -> result A) (a : A) l x r : foldM (fun _ y => F y) a (l ++ [x]) = Ok r -> F x = Ok r.
Proof.
  revert a. induction l as [|y l IH]; intros a H; cbn [app foldM] in H.
  - destruct (F x); [exact H|discriminate].
  - destruct (F y) as [b|]; cbn [bind] in H; [eauto|discriminate].
Qed.
Lemma offsets_app acc l1 l2 : point_offsets acc (l1 ++ l2) = point_offsets acc l1 ++ point_offsets (acc + fold_right Nat.add 0 l1) l2.
Proof.
  revert acc. induction l1 as [|n l1 IH]; intros acc; cbn [app point_offsets fold_right]; [now rewrite Nat.add_0_r|]. rewrite IH. cbn. now rewrite Nat.add_assoc.
Qed.
Lemma offsets_shift k l : forall acc, point_offsets (k + acc) l = map (Nat.add k) (point_offsets acc l).
Proof. induction l as [|n l IH]; intros acc; cbn; [reflexivity|]. now rewrite <- Nat.add_assoc, IH. Qed.
Lemma combine_app {A B} (a1 a2 : list A) (b1 b2 : list B) : length a1 = length b1 -> combine (a1 ++ a2) (b1 ++ b2) = combine a1 b1 ++ combine a2 b2.
Proof. revert b1. induction a1 as [|x a1 IH]; intros [|y b1] H; try discriminate; [reflexivity|]. cbn. injection H as H. now rewrite IH. Qed.
Lemma offsets_length acc l : length (point_offsets acc l) = length l.
Proof. revert acc. induction l; intros acc; cbn; auto. Qed.
Lemma last_split {A} (l : list A) : l <> [] -> exists l' x, l = l' ++ [x].
Proof. destruct l as [|a l] using rev_ind; [congruence|]. eauto. Qed.

(** What [organize_cells] does to the pieces of two files, one after the other *)
Lemma organize_later (s1 s2 : list nat) (c1 c2 : list (list Z * list Z * list Z)) (r1 r2 : list (dict (varr V))) x y :
  length s1 = length c1 -> length r1 = length c1 -> length r2 = length c2 ->
  organize_cells (point_offsets 0 s2) c2 r2 = Ok y ->
  organize_cells (point_offsets 0 (s1 ++ s2)) (c1 ++ c2) (r1 ++ r2) = Ok x ->
  fst x = map (shift_block (fold_right Nat.add 0 s1)) (fst y) /\ snd x = snd y.
Proof.
  intros L1 L2 L3 Hy Hx. rewrite offsets_app in Hx. cbn [Nat.add] in Hx.
  set (k := fold_right Nat.add 0 s1) in *. rewrite <- (Nat.add_0_r k) in Hx. rewrite offsets_shift in Hx.
  unfold organize_cells in *. rewrite offsets_length in Hy. destruct (Nat.eqb_spec (length s2) (length c2)) as [L4|]; [|discriminate].
  cbn [negb] in Hy. destruct (existsb _ c2); [discriminate|].
  destruct (negb _) in Hx; [discriminate|]. destruct (existsb _ (c1 ++ c2)); [discriminate|].
  rewrite (combine_app c1 c2), combine_app in Hx by (rewrite ?combine_length, ?offsets_length; lia).
  destruct c2 as [|z c2] using rev_ind; [destruct s2; [|discriminate]; discriminate|]. clear IHc2.
  destruct s2 as [|n s2] using rev_ind; [rewrite app_length in L4; cbn in L4; lia|]. clear IHs2.
  destruct r2 as [|d r2] using rev_ind; [rewrite app_length in L3; cbn in L3; lia|]. clear IHr2.
  rewrite !app_length in *. cbn [length] in *.
  rewrite offsets_app in Hy, Hx. cbn [point_offsets] in Hy, Hx. rewrite map_app in Hx. cbn [map] in Hx.
  rewrite (combine_app c2 [z]), combine_app in Hy, Hx by (rewrite ?combine_length, ?map_length, ?offsets_length; lia). cbn [combine] in Hy, Hx.
  rewrite app_assoc in Hx.
  destruct (foldM _ None (_ ++ [(0 + _, _)])) as [ry|] eqn:Fy in Hy; cbn [bind] in Hy; [|discriminate].
  destruct (foldM _ None (_ ++ [(k + _, _)])) as [rx|] eqn:Fx in Hx; cbn [bind] in Hx; [|discriminate].
  apply foldM_last in Fy. apply foldM_last in Fx. destruct z as [[conn offs] types].
  destruct (vtk_cells_from_data conn offs types) as [b|]; cbn [bind] in Fx, Fy; [|discriminate].
  injection Fx as <-. injection Fy as <-. injection Hx as <-. injection Hy as <-. cbn [fst snd]. split; [|reflexivity].
  rewrite map_map. apply map_ext. intros [t dd]. unfold shift_block. cbn [btype bdata]. f_equal. rewrite map_map. apply map_ext.
  intros c. rewrite map_map. apply map_ext. intros v. lia.
Qed.

Lemma raws_length {A} (l1 l2 : list A) x n1 n2 (dflt : list A) :
  length (match l1 ++ x :: l2 with [] => dflt | d :: l => d :: l end) = n1 + n2 -> length (x :: l2) = n2 -> length l1 = n1.
Proof. destruct l1; cbn [app length]; rewrite ?app_length; cbn [length]; lia. Qed.

Definition raws_of (u : upiece (V := V)) : list (dict (varr V)) := match up_craw u with [] => repeat [] (length (up_cells u)) | l => l end.

Lemma document_read attrs ps m : Forall (fun p => xtag p = "Piece") ps -> read_root nk pk native (document attrs ps) = Ok m ->
  exists h us, mapM (read_piece nk pk h piece0) ps = Ok us /\ read_head native (document attrs ps) = Ok h /\
    length (flat_map up_points us) = length (flat_map up_cells us) /\
    length (match flat_map up_craw us with [] => repeat [] (length (flat_map up_cells us)) | l => l end) = length (flat_map up_cells us) /\
    flat_map up_points us <> [] /\ vm_points m = flat_map va_rows (flat_map up_points us) /\
    organize_cells (point_offsets 0 (map (fun a => length (va_rows a)) (flat_map up_points us))) (flat_map up_cells us)
      (match flat_map up_craw us with [] => repeat [] (length (flat_map up_cells us)) | l => l end) = Ok (vm_cells m, vm_cdata m).
Proof.
  intros Hps H. unfold read_root in H. destruct (read_head native (document attrs ps)) as [h0|] eqn:Eh; cbn [bind] in H; [|discriminate].
  unfold document in H. cbn [xchildren get_grid xtag String.eqb Ascii.eqb Bool.eqb bind fst snd] in H.
  destruct (negb _); [discriminate|].
  assert (Ef : filter (fun c => String.eqb (xtag c) "Piece") ps = ps).
  { clear -Hps. induction Hps as [|p ps Hp H IH]; [reflexivity|]. cbn [filter]. now rewrite Hp, IH. }
  rewrite Ef in H. destruct (read_named _ _ _ _) as [fd|]; cbn [bind] in H; [|discriminate].
  destruct ps as [|p ps]; [discriminate|]. rewrite pieces_fold in H.
  assert (Eh' : UHead (h_comp h0) (h_type h0) (h_big h0) None = h0).
  { clear -Eh. unfold read_head in Eh. cbv zeta in Eh.
    repeat match type of Eh with
    | (if ?c then Err _ else _) = Ok _ => destruct c; [discriminate|]
    | bind ?x _ = Ok _ => destruct x; cbn [bind] in Eh; [|discriminate]
    | match ?x with Some _ => _ | None => _ end = Ok _ => destruct x
    end; injection Eh as <-; reflexivity. }
  rewrite Eh' in H. destruct (mapM _ (p :: ps)) as [us|] eqn:Eu; cbn [bind] in H; [|discriminate].
  rewrite fold_add in H. cbn [up_points up_cells up_pdata up_craw piece0 app] in H.
  set (raws := match flat_map up_craw us with [] => _ | _ => _ end) in H.
  destruct (Nat.eqb_spec (length raws) (length (flat_map up_cells us))) as [Er|]; cbn [negb] in H; [|discriminate].
  destruct (flat_map up_points us) as [|a pts] eqn:Epts; [discriminate|].
  destruct (concat_arrays (a :: pts)) as [q|] eqn:Eq; cbn [bind] in H; [|discriminate].
  destruct (merge_point_data _) as [pd|]; cbn [bind] in H; [|discriminate].
  destruct (organize_cells _ _ _) as [[bs cd]|] eqn:Eo; cbn [bind fst snd] in H; [|discriminate].
  unfold build_mesh in H. cbn [of_option bind] in H. destruct (mapM _ bs); cbn [bind] in H; [|discriminate].
  destruct (negb _) in H; [discriminate|]. destruct (negb _) in H; [discriminate|]. injection H as <-. cbn [vm_points vm_cells vm_cdata fst snd].
  exists h0, us. split; [exact Eu|]. split; [reflexivity|]. rewrite Epts. split.
  { unfold organize_cells in Eo. rewrite offsets_length, map_length in Eo. destruct (Nat.eqb_spec (length (a :: pts)) (length (flat_map up_cells us))) as [E|]; [exact E|discriminate]. }
  split; [exact Er|]. split; [discriminate|]. split; [|exact Eo].
  unfold concat_arrays in Eq. destruct (forallb _ _); [|discriminate]. injection Eq as <-. reflexivity.
Qed.

Theorem last_piece attrs ps p ms mp m : Forall (fun p => xtag p = "Piece") (ps ++ [p]) ->
  Forall2 (fun p m => read_root nk pk native (document attrs [p]) = Ok m) ps ms ->
  read_root nk pk native (document attrs [p]) = Ok mp ->
  read_root nk pk native (document attrs (ps ++ [p])) = Ok m ->
  vm_points m = flat_map vm_points ms ++ vm_points mp /\
  vm_cells m = map (shift_block (length (flat_map vm_points ms))) (vm_cells mp) /\ vm_cdata m = vm_cdata mp.
Proof.
  intros Htag Hms Hp Hall. pose proof Htag as Htag'. apply Forall_app in Htag. destruct Htag as [Ht1 Ht2].
  destruct (document_read _ _ _ Ht2 Hp) as (h & up & Eu & Eh & L1 & L2 & Ne & Pp & Op).
  cbn [mapM] in Eu. destruct (read_piece nk pk h piece0 p) as [u|] eqn:Erp; cbn [bind] in Eu; [|discriminate]. injection Eu as <-.
  cbn [flat_map] in *. rewrite !app_nil_r in *.
  destruct (document_read _ _ _ Htag' Hall) as (h' & us' & Eus & Eh' & L1' & L2' & Ne' & Pm & Om).
  assert (h' = h) by (unfold read_head in Eh, Eh'; cbn [document xtag xattrs] in Eh, Eh'; rewrite Eh in Eh'; now injection Eh'). subst h'.
  assert (exists us, us' = us ++ [u] /\ Forall2 (fun v m => length (up_points v) = length (up_cells v) /\ length (raws_of v) = length (up_cells v) /\
             up_points v <> [] /\ vm_points m = flat_map va_rows (up_points v)) us ms) as (us & -> & Hus).
  { clear -Eus Erp Hms Eh Ht1. revert us' Eus. induction Hms as [|q qm ps ms Hq Hms IH]; intros us' Eus.
    - cbn [app mapM] in Eus. rewrite Erp in Eus. cbn in Eus. injection Eus as <-. exists []. split; [reflexivity|constructor].
    - inversion Ht1 as [|? ? Htq Ht1']; subst. cbn [app mapM] in Eus.
      destruct (document_read _ [q] _ ltac:(constructor; [exact Htq|constructor]) Hq) as (h' & uq & Eq & Eh' & A & B & C & D & _).
      assert (h' = h) by (unfold read_head in Eh, Eh'; cbn [document xtag xattrs] in Eh, Eh'; rewrite Eh in Eh'; now injection Eh'). subst h'.
      cbn [mapM] in Eq. destruct (read_piece nk pk h piece0 q) as [v|]; cbn [bind] in Eq, Eus; [|discriminate]. injection Eq as <-.
      cbn [flat_map] in *. rewrite !app_nil_r in *.
      destruct (mapM _ (ps ++ [p])) as [us2|]; cbn [bind] in Eus; [|discriminate]. injection Eus as <-.
      destruct (IH Ht1' _ eq_refl) as (us & -> & Hus). exists (v :: us). split; [reflexivity|]. constructor; [|exact Hus]. auto. }
  rewrite !flat_map_app in *. cbn [flat_map] in *. rewrite !app_nil_r in *.
  assert (Epts : flat_map vm_points ms = flat_map va_rows (flat_map up_points us)).
  { clear -Hus. induction Hus as [|v m us ms (_ & _ & _ & E) H IH]; [reflexivity|]. cbn [flat_map]. rewrite flat_map_app, E, IH. reflexivity. }
  rewrite Epts, Pp. split; [exact Pm|].
  assert (Lpc : length (flat_map up_points us) = length (flat_map up_cells us)).
  { clear -Hus. induction Hus as [|v m us ms (A & _) H IH]; [reflexivity|]. cbn [flat_map]. rewrite !app_length. lia. }
  assert (Lrc : length (flat_map up_craw us) <= length (flat_map up_cells us) /\
            (flat_map up_craw us = [] \/ exists d l, flat_map up_craw us = d :: l)).
  { split; [|destruct (flat_map up_craw us); eauto]. clear -Hus. induction Hus as [|v m us ms (_ & A & _) H IH]; [reflexivity|]. cbn [flat_map]. rewrite !app_length.
    unfold raws_of in A. destruct (up_craw v); cbn [length] in *; lia. }
  assert (Ek : fold_right Nat.add 0 (map (fun a : varr V => length (va_rows a)) (flat_map up_points us)) = length (flat_map va_rows (flat_map up_points us))).
  { generalize (flat_map up_points us). induction l as [|a l IH]; [reflexivity|]. cbn [map fold_right flat_map]. rewrite app_length, IH. reflexivity. }
  rewrite <- Ek. rewrite map_app in Om.
  assert (Hraw : exists r1, length r1 = length (flat_map up_cells us) /\
            match flat_map up_craw us ++ up_craw u with [] => repeat [] (length (flat_map up_cells us ++ up_cells u)) | l => l end = r1 ++ raws_of u).
  { unfold raws_of. destruct (up_craw u) as [|d l] eqn:Ed.
    - rewrite app_nil_r in *. destruct (flat_map up_craw us) as [|d l] eqn:Eus2.
      + exists (repeat [] (length (flat_map up_cells us))). rewrite repeat_length. split; [reflexivity|]. rewrite app_length. apply repeat_app.
      + exfalso. rewrite app_length in L2'. assert (length (up_points u) <> 0) by (destruct (up_points u); [congruence|discriminate]).
        destruct Lrc as [Lrc _]. rewrite L1 in H. pose proof (Nat.le_trans _ _ _ (Nat.eq_le_incl _ _ (eq_sym L2')) Lrc). lia.
    - exists (flat_map up_craw us). assert (Ec : length (flat_map up_craw us) = length (flat_map up_cells us)).
      { rewrite ?app_length in L2'. exact (raws_length _ _ _ _ _ _ L2' L2). }
      split; [exact Ec|]. destruct (flat_map up_craw us); reflexivity. }
  destruct Hraw as (r1 & Lr1 & Er1). pose proof (eq_trans (f_equal (organize_cells _ _) (eq_sym Er1)) Om) as Om'.
  assert (L2u : length (raws_of u) = length (up_cells u)) by exact L2.
  pose proof (organize_later (map (fun a : varr V => length (va_rows a)) (flat_map up_points us)) (map (fun a : varr V => length (va_rows a)) (up_points u))
    (flat_map up_cells us) (up_cells u) r1 (raws_of u) _ _ ltac:(now rewrite map_length) Lr1 L2u Op Om') as [A B].
  cbn [fst snd] in A, B. auto.
Qed.
End Pieces.
