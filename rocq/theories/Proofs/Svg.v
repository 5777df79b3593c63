(** Proofs about SVG pictures (C80). *)
From Coq Require Import QArith Qabs String Lia Lqa.
From Verif.Lib Require Import Base Facts Runs Text.
From Verif.Model Require Import Core Svg.
From Verif.Spec Require Import Svg.
Import ListNotations.
Open Scope nat_scope.

Lemma qmin_le a b : (qmin a b <= a /\ qmin a b <= b)%Q.
Proof.
  unfold qmin. destruct (Qle_bool a b) eqn:E; [apply Qle_bool_iff in E; split; [apply Qle_refl|exact E]|].
  assert (H : ~ (a <= b)%Q) by (rewrite <- Qle_bool_iff; congruence). split; [apply Qlt_le_weak, Qnot_le_lt, H|apply Qle_refl].
Qed.
Lemma qmax_le a b : (a <= qmax a b /\ b <= qmax a b)%Q.
Proof.
  unfold qmax. destruct (Qle_bool a b) eqn:E; [apply Qle_bool_iff in E; split; [exact E|apply Qle_refl]|].
  assert (H : ~ (a <= b)%Q) by (rewrite <- Qle_bool_iff; congruence). split; [apply Qle_refl|apply Qlt_le_weak, Qnot_le_lt, H].
Qed.
Lemma fold_min_ok l : forall x, In (fold_left qmin l x) (x :: l) /\ forall y, In y (x :: l) -> (fold_left qmin l x <= y)%Q.
Proof.
  induction l as [|a l IH]; intros x; cbn [fold_left].
  - split; [now left|]. intros y [<-|[]]. apply Qle_refl.
  - destruct (IH (qmin x a)) as [I L]. destruct (qmin_le x a) as [M1 M2]. split.
    + destruct I as [I|I]; [|right; now right]. rewrite <- I. unfold qmin. destruct (Qle_bool x a); [now left|right; now left].
    + specialize (L (qmin x a) (or_introl eq_refl)) as L0.
      intros y [<-|[<-|Hy]]; [eapply Qle_trans; eauto|eapply Qle_trans; eauto|apply L; now right].
Qed.
Lemma fold_max_ok l : forall x, In (fold_left qmax l x) (x :: l) /\ forall y, In y (x :: l) -> (y <= fold_left qmax l x)%Q.
Proof.
  induction l as [|a l IH]; intros x; cbn [fold_left].
  - split; [now left|]. intros y [<-|[]]. apply Qle_refl.
  - destruct (IH (qmax x a)) as [I L]. destruct (qmax_le x a) as [M1 M2]. split.
    + destruct I as [I|I]; [|right; now right]. rewrite <- I. unfold qmax. destruct (Qle_bool x a); [right; now left|now left].
    + specialize (L (qmax x a) (or_introl eq_refl)) as L0.
      intros y [<-|[<-|Hy]]; [eapply Qle_trans; eauto|eapply Qle_trans; eauto|apply L; now right].
Qed.
Lemma column_min_ok l : l <> [] -> In (column_min l) l /\ forall y, In y l -> (column_min l <= y)%Q.
Proof. destruct l as [|x l]; [congruence|]. intros _. apply fold_min_ok. Qed.
Lemma column_max_ok l : l <> [] -> In (column_max l) l /\ forall y, In y l -> (y <= column_max l)%Q.
Proof. destruct l as [|x l]; [congruence|]. intros _. apply fold_max_ok. Qed.

(** ** Paths *)
Definition same (p q : Q * Q) : Prop := (fst p == fst q /\ snd p == snd q)%Q.
Section Paths.
Context (fmt : Q -> string).
Hypothesis Hfmt : forall x y, (x == y)%Q -> fmt x = fmt y.
Lemma stop_same p q : same p q -> stop fmt p = stop fmt q.
Proof. intros [E1 E2]. unfold stop. now rewrite (Hfmt _ _ E1), (Hfmt _ _ E2). Qed.
Lemma corners_drawn t n : In (t, n) drawn_types -> corners_of t = Some n /\ drawn t = true /\ 0 < n /\ Nat.eqb n 2 = String.eqb t "line".
Proof. cbn [drawn_types In]. intros H. repeat (destruct H as [H|H]; [injection H as <- <-; repeat split; lia|]). destruct H. Qed.
Lemma corners_none t : drawn t = false -> corners_of t = None.
Proof.
  unfold drawn, corners_of. cbn [drawn_types map fst existsb]. rewrite !orb_false_iff. intros (E1 & E2 & E3 & _). now rewrite E1, E2, E3.
Qed.
Lemma corners_some t : drawn t = true -> exists n, corners_of t = Some n.
Proof.
  unfold drawn, corners_of. cbn [drawn_types map fst existsb]. destruct (String.eqb t "line"); [eauto|]. destruct (String.eqb t "triangle"); [eauto|].
  destruct (String.eqb t "quad"); [eauto|discriminate].
Qed.
Lemma append_assoc (a b c : string) : ((a ++ b) ++ c = a ++ (b ++ c))%string.
Proof. induction a; cbn; congruence. Qed.
Lemma append_nil (a : string) : (a ++ "" = a)%string.
Proof. induction a; cbn; congruence. Qed.
Lemma corners_text r : forall p, (stop fmt p ++ String.concat "" (map (corner_text fmt "L") r) = String.concat "L" (map (stop fmt) (p :: r)))%string.
Proof.
  induction r as [|q r IH]; intros p; [exact (append_nil (stop fmt p))|]. cbn [map].
  assert (Ec : forall x l, String.concat "" (x :: l) = (x ++ String.concat "" l)%string) by (intros x [|y l]; cbn; [now rewrite append_nil|reflexivity]).
  rewrite Ec. specialize (IH q). cbn [map] in IH.
  change (String.concat "L" (stop fmt p :: stop fmt q :: map (stop fmt) r)) with (stop fmt p ++ "L" ++ String.concat "L" (stop fmt q :: map (stop fmt) r))%string.
  rewrite <- IH. change (corner_text fmt "L" q) with ("L" ++ stop fmt q)%string. now rewrite !append_assoc.
Qed.
Lemma path_text_ok t ps qs : In (t, length ps) drawn_types -> Forall2 same ps qs -> path_text fmt t ps = Ok (path fmt t qs).
Proof.
  intros H Hs. destruct (corners_drawn _ _ H) as (E & _ & Hn & En). unfold path_text. rewrite E, Nat.ltb_irrefl, firstn_all. cbn iota.
  destruct ps as [|p r]; [cbn in Hn; lia|]. f_equal. unfold path. rewrite En.
  assert (Em : map (stop fmt) qs = map (stop fmt) (p :: r)).
  { clear - Hs Hfmt. induction Hs as [|a b l l' Hab _ IH]; [reflexivity|]. cbn [map]. now rewrite IH, (stop_same _ _ Hab). }
  rewrite Em, <- corners_text. change (corner_text fmt "M" p) with ("M" ++ stop fmt p)%string. now rewrite !append_assoc.
Qed.
End Paths.

Lemma nodes_ok {A B} (R : A -> B -> Prop) (pts : list A) (f : list Q -> B) (points : list (list Q)) c :
  Forall2 R pts (map f points) -> Forall (fun i => 0 <= i < Z.of_nat (length points))%Z c ->
  exists ps, mapM (fun i => of_option IndexError (znth pts i)) c = Ok ps /\ Forall2 R ps (map (fun i => f (nth (Z.to_nat i) points [])) c) /\ length ps = length c.
Proof.
  intros Hp Hc. induction Hc as [|i c Hi Hc (ps & E & F & L)]; [exists []; repeat split; constructor|].
  assert (N : exists a, nth_error pts (Z.to_nat i) = Some a /\ R a (f (nth (Z.to_nat i) points []))).
  { assert (Hn : Z.to_nat i < length points) by lia. clear - Hp Hn. revert pts Hp Hn. generalize (Z.to_nat i). induction points as [|q points IH]; intros n pts Hp Hn; [cbn in Hn; lia|].
    inversion Hp as [|a b l l' Hab Hl]; subst. destruct n as [|n]; [exists a; split; [reflexivity|exact Hab]|]. cbn in Hn. apply (IH n l Hl). lia. }
  destruct N as (a & Ea & Ra). exists (a :: ps). cbn [mapM map]. unfold znth at 1. destruct (Z.leb_spec 0 i); [|lia]. rewrite Ea. cbn [of_option bind]. rewrite E. cbn [bind].
  split; [reflexivity|]. split; [now constructor|cbn; now rewrite L].
Qed.

Lemma blocks_ok fmt (Hfmt : forall x y, (x == y)%Q -> fmt x = fmt y) pts (f : list Q -> Q * Q) (points : list (list Q)) bs :
  Forall2 same pts (map f points) -> drawable (length points) bs ->
  exists l, mapM (block_paths fmt pts) bs = Ok l /\
    concat l = map (fun tc => path fmt (fst tc) (map (fun i => f (nth (Z.to_nat i) points [])) (snd tc))) (drawn_cells bs).
Proof.
  intros Hp Hd. unfold drawable, drawn_cells in *. induction bs as [|b bs IH]; [exists []; split; reflexivity|].
  cbn [flat_map] in *. apply Forall_app in Hd. destruct Hd as [Hb Hd]. destruct (IH Hd) as (l & E & El). clear IH Hd.
  cbn [mapM]. unfold block_paths at 1. rewrite map_app, <- El. destruct (drawn (btype b)) eqn:Eb.
  - destruct (corners_some _ Eb) as (n & ->).
    assert (X : mapM (fun c => do ps <- mapM (fun i => of_option IndexError (znth pts i)) c; path_text fmt (btype b) ps) (bdata b) =
                Ok (map (fun tc => path fmt (fst tc) (map (fun i => f (nth (Z.to_nat i) points [])) (snd tc))) (map (fun c => (btype b, c)) (bdata b)))).
    { clear E El Eb. induction (bdata b) as [|c cs IH]; [reflexivity|]. cbn [map] in Hb. inversion Hb as [|? ? [H1 H2] H3]; subst. cbn [mapM map fst snd] in *. rewrite IH by auto.
      destruct (nodes_ok same pts f points c Hp H2) as (ps & -> & F & L). cbn [bind]. rewrite <- L in H1. rewrite (path_text_ok fmt Hfmt _ ps _ H1 F). reflexivity. }
    rewrite X. cbn [bind]. rewrite E. eexists. split; reflexivity.
  - rewrite (corners_none _ Eb). cbn [bind]. rewrite E. eexists. split; reflexivity.
Qed.

(** ** The page *)
Lemma tight_page pts s sum x0 y0 w h mnx mxx mny mxy : (0 < s)%Q -> pts <> [] ->
  mnx = column_min (map x_of pts) -> mxx = column_max (map x_of pts) -> mny = column_min (map y_of pts) -> mxy = column_max (map y_of pts) ->
  (sum == mxy + mny)%Q -> (x0 == s * mnx)%Q -> (y0 == s * mny)%Q -> (w == s * (mxx - mnx))%Q -> (h == s * (mxy - mny))%Q ->
  tight x0 y0 w h (map (position s sum) pts).
Proof.
  intros Hs Hne -> -> -> -> Es Ex Ey Ew Eh.
  assert (Nx : map x_of pts <> []) by (destruct pts; [congruence|discriminate]).
  assert (Ny : map y_of pts <> []) by (destruct pts; [congruence|discriminate]).
  destruct (column_min_ok _ Nx) as [I1 L1]. destruct (column_max_ok _ Nx) as [I2 L2].
  destruct (column_min_ok _ Ny) as [I3 L3]. destruct (column_max_ok _ Ny) as [I4 L4].
  set (mnx := column_min (map x_of pts)) in *. set (mxx := column_max (map x_of pts)) in *.
  set (mny := column_min (map y_of pts)) in *. set (mxy := column_max (map y_of pts)) in *.
  apply in_map_iff in I1 as (p1 & E1 & I1). apply in_map_iff in I2 as (p2 & E2 & I2).
  apply in_map_iff in I3 as (p3 & E3 & I3). apply in_map_iff in I4 as (p4 & E4 & I4).
  split.
  - intros q Hq. apply in_map_iff in Hq as (p & <- & Hp). unfold position. cbn [fst snd].
    pose proof (L1 _ (in_map x_of _ _ Hp)) as A1. pose proof (L2 _ (in_map x_of _ _ Hp)) as A2.
    pose proof (L3 _ (in_map y_of _ _ Hp)) as A3. pose proof (L4 _ (in_map y_of _ _ Hp)) as A4.
    rewrite Ex, Ey, Ew, Eh, Es. clear - Hs A1 A2 A3 A4.
    assert (M : forall a b, (a <= b -> s * a <= s * b)%Q) by (intros a b H; apply Qmult_le_l; assumption).
    split; split.
    + now apply M.
    + setoid_replace (s * mnx + s * (mxx - mnx))%Q with (s * mxx)%Q by ring. now apply M.
    + apply M. lra.
    + setoid_replace (s * mny + s * (mxy - mny))%Q with (s * mxy)%Q by ring. apply M. lra.
  - assert (X : forall p, In p pts -> In (position s sum p) (map (position s sum) pts)) by (intros; now apply in_map).
    split; [|split; [|split]].
    + exists (position s sum p1). split; [auto|]. unfold position. cbn [fst]. rewrite E1, Ex. reflexivity.
    + exists (position s sum p2). split; [auto|]. unfold position. cbn [fst]. rewrite E2, Ex, Ew. ring.
    + exists (position s sum p4). split; [auto|]. unfold position. cbn [snd]. rewrite E4, Ey, Es. ring.
    + exists (position s sum p3). split; [auto|]. unfold position. cbn [snd]. rewrite E3, Ey, Eh, Es. ring.
Qed.

Section Picture.
Context (o : svg_options).
Hypothesis Hfmt : forall x y, (x == y)%Q -> so_fmt o x = so_fmt o y.
Definition stroke_width (w : Q) : string := match so_stroke_width o with Some t => t | None => so_str o (w / 100)%Q end.

Lemma flat_ok dim points : (dim = 3 -> Forall (fun p => Qabs (nth 2 p 0) <= 1 # 100000000000000)%Q points) -> flat dim points = true.
Proof.
  intros H. unfold flat. destruct (Nat.eqb_spec dim 3) as [E|_]; [|reflexivity]. cbn [negb orb]. apply forallb_forall. intros p Hp.
  specialize (H E). rewrite Forall_forall in H. apply Qle_bool_iff. exact (H p Hp).
Qed.
Lemma flat_refused dim points p : dim = 3 -> In p points -> (1 # 100000000000000 < Qabs (nth 2 p 0))%Q -> flat dim points = false.
Proof.
  intros -> Hp H. unfold flat. cbn [Nat.eqb negb orb]. apply Bool.not_true_iff_false. intros E. rewrite forallb_forall in E. specialize (E p Hp). apply Qle_bool_iff in E.
  unfold tolerance in E. apply Qlt_not_le in H. contradiction.
Qed.

Lemma scaled_same (pts : list (list Q)) s sum (f : list Q -> Q * Q) :
  (forall p, same (f p) (position s sum p)) -> Forall2 same (map f pts) (map (position s sum) pts).
Proof. intros H. induction pts; cbn; constructor; auto. Qed.

Theorem svg_picture ints dim points bs :
  dim = 2 \/ dim = 3 -> points <> [] -> (dim = 3 -> Forall (fun p => Qabs (nth 2 p 0) <= 1 # 100000000000000)%Q points) ->
  drawable (length points) bs -> (forall iw, so_image_width o = Some iw -> 0 < iw)%Q ->
  ints = false \/ so_image_width o = None ->
  exists s sum x0 y0 w h,
    write_svg o ints dim points bs =
      Ok (Svg (join " " (map (so_fmt o) [x0; y0; w; h])) (style_text (so_fill o) (so_stroke o) (stroke_width w))
             (map (fun tc => path (so_fmt o) (fst tc) (map (position s sum) (nodes points (snd tc)))) (drawn_cells bs))) /\
    (0 < s)%Q /\ tight x0 y0 w h (map (position s sum) points) /\
    (forall iw, so_image_width o = Some iw -> (exists p q, In p points /\ In q points /\ ~ x_of p == x_of q)%Q -> w == iw)%Q /\
    (so_image_width o = None -> s == 1)%Q.
Proof.
  intros Hdim Hne Hflat Hd Hw Hints. unfold write_svg. rewrite (flat_ok _ _ Hflat). cbn [negb]. cbn iota.
  replace (Nat.ltb dim 2) with false by (destruct Hdim as [-> | ->]; reflexivity).
  change (map (fun p : list Q => nth 0 p 0%Q) points) with (map x_of points). change (map (fun p : list Q => nth 1 p 0%Q) points) with (map y_of points).
  assert (Nx : map x_of points <> []) by (destruct points; [congruence|discriminate]).
  destruct (column_min_ok _ Nx) as [I1 L1]. destruct (column_max_ok _ Nx) as [I2 L2].
  set (mnx := column_min (map x_of points)) in *. set (mxx := column_max (map x_of points)) in *.
  set (mny := column_min (map y_of points)) in *. set (mxy := column_max (map y_of points)) in *.
  assert (Hpos : (0 <= mxx - mnx)%Q).
  { destruct points as [|p points']; [congruence|]. pose proof (L1 (x_of p) (or_introl eq_refl)). pose proof (L2 (x_of p) (or_introl eq_refl)). lra. }
  assert (Est : forall sw, ("path {" ++ join "; " ["fill: " ++ so_fill o; "stroke: " ++ so_stroke o; "stroke-width: " ++ sw; "stroke-linejoin:bevel"] ++ "}")%string
                = style_text (so_fill o) (so_stroke o) sw).
  { intros sw. unfold style_text, join. cbn. repeat (rewrite append_assoc; cbn). reflexivity. }
  assert (Done : forall s x0 y0 w h pts', (0 < s)%Q -> (x0 == s * mnx)%Q -> (y0 == s * mny)%Q -> (w == s * (mxx - mnx))%Q -> (h == s * (mxy - mny))%Q ->
     Forall2 same pts' (map (position s (mxy + mny)) points) ->
     (forall iw, so_image_width o = Some iw -> (exists p q, In p points /\ In q points /\ ~ x_of p == x_of q)%Q -> w == iw)%Q ->
     (so_image_width o = None -> s == 1)%Q ->
     exists s sum x0' y0' w' h',
     (do ps <- mapM (block_paths (so_fmt o) pts') bs;
      Ok (Svg (join " " (map (so_fmt o) [x0; y0; w; h]))
            ("path {" ++ join "; " ["fill: " ++ so_fill o; "stroke: " ++ so_stroke o; "stroke-width: " ++ stroke_width w; "stroke-linejoin:bevel"] ++ "}")%string (concat ps))) =
      Ok (Svg (join " " (map (so_fmt o) [x0'; y0'; w'; h'])) (style_text (so_fill o) (so_stroke o) (stroke_width w'))
             (map (fun tc => path (so_fmt o) (fst tc) (map (position s sum) (nodes points (snd tc)))) (drawn_cells bs))) /\
    (0 < s)%Q /\ tight x0' y0' w' h' (map (position s sum) points) /\
    (forall iw, so_image_width o = Some iw -> (exists p q, In p points /\ In q points /\ ~ x_of p == x_of q)%Q -> w' == iw)%Q /\
    (so_image_width o = None -> s == 1)%Q).
  { intros s x0 y0 w h pts' Hs Ex Ey Ew Eh Hsame Hiw H1. exists s, (mxy + mny)%Q, x0, y0, w, h.
    destruct (blocks_ok (so_fmt o) Hfmt pts' (position s (mxy + mny)) points bs Hsame Hd) as (l & -> & El). cbn [bind]. rewrite Est, El. split.
    - f_equal. f_equal. apply map_ext. intros tc. unfold nodes. now rewrite map_map.
    - split; [exact Hs|]. split; [|auto]. eapply tight_page; eauto; reflexivity. }
  destruct (so_image_width o) as [iw|] eqn:Eiw.
  - destruct (Qeq_bool (mxx - mnx) 0) eqn:E0.
    + apply Qeq_bool_iff in E0. cbn [bind]. apply Done with (s := 1%Q); try (symmetry; apply Qmult_1_l); try reflexivity.
      * apply scaled_same. intros p. unfold position, same. cbn [fst snd]. fold (x_of p) (y_of p). split; ring.
      * intros iw' _ (p & q & Hp & Hq & Hx). exfalso. apply Hx.
        pose proof (L1 _ (in_map x_of _ _ Hp)). pose proof (L2 _ (in_map x_of _ _ Hp)). pose proof (L1 _ (in_map x_of _ _ Hq)). pose proof (L2 _ (in_map x_of _ _ Hq)). lra.
    + destruct Hints as [-> | ?]; [|discriminate]. assert (N0 : ~ (mxx - mnx == 0)%Q) by (intros E; apply Qeq_bool_iff in E; congruence).
      assert (P : (0 < mxx - mnx)%Q) by (apply Qle_lteq in Hpos; destruct Hpos as [|E]; [assumption|exfalso; apply N0; now rewrite E]).
      specialize (Hw iw eq_refl). cbn [bind].
      assert (Hs : (0 < iw / (mxx - mnx))%Q).
      { unfold Qdiv. rewrite <- (Qmult_0_l (/ (mxx - mnx))). apply Qmult_lt_r; [now apply Qinv_lt_0_compat|exact Hw]. }
      apply Done with (s := (iw / (mxx - mnx))%Q); try apply Qmult_comm; try exact Hs.
      * rewrite map_map. apply scaled_same. intros p. unfold position, same. cbn [fst snd]. fold (x_of p) (y_of p). split; apply Qmult_comm.
      * intros iw' [= <-] _. now apply Qmult_div_r.
      * discriminate.
  - cbn [bind]. apply Done with (s := 1%Q); try (symmetry; apply Qmult_1_l); try reflexivity.
    + apply scaled_same. intros p. unfold position, same. cbn [fst snd]. fold (x_of p) (y_of p). split; ring.
    + discriminate.
Qed.
End Picture.
