From Coq Require Import Lia.
From Verif.Lib Require Import Base Facts Facts2 Text TextFacts Lines LinesFacts.
From Verif.Model Require Import Core Tables Abaqus Snoc Avsucd.
From Verif.Spec Require Import Core Blocks Mdpa Avsucd.
From Verif.Proofs Require Import Ply Gmsh Mdpa Abaqus Blocks Snoc CoreMisc AbaqusFile Permas Avsucd.
Import Model.Avsucd.
Local Arguments str_of_nat : simpl never.
Local Arguments str_of_Z : simpl never.

Lemma id_at n i : i < n -> zget (Z.of_nat (S i)) (id_map (map (fun k => Z.of_nat (S k)) (seq 0 n))) = Some i.
Proof.
  intros H. apply id_map_get.
  - apply FinFun.Injective_map_NoDup; [intros a b; lia|apply seq_NoDup].
  - rewrite nth_error_map, (nth_error_nth' _ 0) by (now rewrite seq_length). now rewrite seq_nth.
Qed.
Lemma in_enumerate {A} (l : list A) j x : In (j, x) (enumerate l) -> nth_error l j = Some x.
Proof.
  unfold enumerate. intros H. assert (G : forall (l : list A) k, In (j, x) (combine (seq k (length l)) l) -> k <= j /\ nth_error l (j - k) = Some x).
  { clear. induction l as [|y l IH]; intros k H; [destruct H|]. cbn [length seq combine In] in H. destruct H as [H|H].
    - injection H as <- <-. rewrite Nat.sub_diag. split; [lia|reflexivity].
    - destruct (IH _ H) as [H1 H2]. split; [lia|]. replace (j - k) with (S (j - S k)) by lia. exact H2. }
  destruct (G _ _ H) as [_ G']. now rewrite Nat.sub_0_r in G'.
Qed.
Lemma combine_enumerate {A B C} (f : A -> B) (g : A -> C) (l : list A) :
  combine (map f l) (enumerate (map g l)) = map (fun jx => (f (snd jx), (fst jx, g (snd jx)))) (enumerate l).
Proof.
  unfold enumerate. rewrite map_length. generalize 0. induction l as [|x l IH]; intros k; [reflexivity|]. cbn [length seq map combine fst snd]. f_equal. apply IH.
Qed.
Lemma fold_left_map {A B C} (f : C -> B -> C) (g : A -> B) (l : list A) : forall c, fold_left f (map g l) c = fold_left (fun c a => f c (g a)) l c.
Proof. induction l as [|x l IH]; intros c; [reflexivity|]. cbn. apply IH. Qed.
Lemma map_enumerate_snd {A B} (f : A -> B) (l : list A) : map (fun jx => f (snd jx)) (enumerate l) = map f l.
Proof. rewrite <- (map_map snd f). unfold enumerate. now rewrite map_snd_combine by (now rewrite seq_length). Qed.
Lemma nth_seq_map {A} (l : list A) d : map (fun j => nth j l d) (seq 0 (length l)) = l.
Proof. induction l as [|x l IH]; [reflexivity|]. cbn [length seq map nth]. f_equal. rewrite <- seq_shift, map_map. exact IH. Qed.
Lemma cut_none s : char_in "#" s = false -> cut_comment s = s.
Proof. induction s as [|a s IH]; [reflexivity|]. cbn [char_in cut_comment]. intros H. apply orb_false_iff in H as [H1 H2]. rewrite Ascii.eqb_sym, H1. now rewrite IH. Qed.

Section Data.
Context {fl : floats} (dfmt : fl -> string) (r : fl -> fl).
Hypothesis dok : forall x, word (dfmt x) = true /\ fparse (dfmt x) = Some (r x).

Lemma words_data (xs : list fl) : forallb word (map dfmt xs) = true.
Proof. induction xs as [|x xs IH]; [reflexivity|]. cbn [map forallb]. now rewrite (proj1 (dok x)), IH. Qed.

Lemma data_back n (d : dict (shape * list (list fl))) : NoDup (dkeys d) -> Forall (fun kv => plain_label (fst kv) /\ array_ok n (snd kv)) d ->
  exists ls, avs_data_lines dfmt n d = Ok ls /\ forall rest,
  read_avs_data n (id_map (map (fun k => Z.of_nat (S k)) (seq 0 n))) (ls ++ rest) = Ok (map (fun kv => (fst kv, seen r (snd kv))) d, rest).
Proof.
  intros Hn Hd. unfold avs_data_lines.
  replace (forallb _ d) with true by (symmetry; apply forallb_forall; intros kv Hin; rewrite Forall_forall in Hd; apply Nat.eqb_eq, (Hd kv Hin)).
  eexists. split; [reflexivity|]. intros rest. unfold read_avs_data. cbn [app line1 hd tl].
  unfold row_line at 1. rewrite split_ws_join.
  2:{ cbn [forallb]. rewrite word_str_of_nat. cbn [andb]. apply forallb_forall. intros s Hs. apply in_map_iff in Hs as (kv & <- & _). apply word_str_of_nat. }
  cbn [tl].
  assert (Ez : parse_ints (map (fun kv => str_of_nat (width (fst (snd kv)))) d) = Ok (map (fun kv : string * (shape * list (list fl)) => Z.of_nat (width (fst (snd kv)))) d)).
  { rewrite <- (parse_ints_ok (map _ d)), map_map. f_equal. apply map_ext. intros. apply str_of_nat_Z. }
  rewrite Ez. cbn [bind]. rewrite map_map.
  assert (Es : map (fun kv : string * (shape * list (list fl)) => Z.to_nat (Z.of_nat (width (fst (snd kv))))) d = map (fun kv => width (fst (snd kv))) d) by (apply map_ext; intros; lia).
  rewrite Es. rewrite <- app_assoc.
  rewrite (read_lines_n _ _ (map (fun kv => (fst kv ++ ", real")%string) d) (dkeys d)).
  3:{ apply mapM_Forall2. unfold dkeys. clear - Hd. induction Hd as [|kv d [H _] _ IH]; cbn [map]; constructor; auto. now rewrite label_back. }
  2:{ now rewrite !map_length. }
  cbn [bind fst snd].
  rewrite (read_lines_n _ _ _ (map (fun i => (i, map (map r) (map (fun kv : string * (shape * list (list fl)) => nth i (snd (snd kv)) []) d))) (seq 0 n))).
  3:{ apply mapM_Forall2. assert (G : forall i, In i (seq 0 n) -> i < n) by (intros i Hi; apply in_seq in Hi; lia). revert G. generalize (seq 0 n) at 1 3 4. intros l G.
      induction l as [|i l IH]; cbn [map]; constructor; [|apply IH; intros; apply G; now right]. specialize (G i (or_introl eq_refl)). clear IH.
      unfold read_avs_row, row_line. rewrite split_ws_join by (cbn [forallb]; rewrite word_str_of_nat; apply words_data).
      cbn [nth_error of_option bind tl]. rewrite str_of_nat_Z, parse_Z_str_of_Z. cbn [of_option bind]. rewrite (id_at n i G). cbn [of_option bind].
      replace (map (fun kv : string * (shape * list (list fl)) => width (fst (snd kv))) d) with (map (@length _) (map (fun kv : string * (shape * list (list fl)) => nth i (snd (snd kv)) []) d)).
      - now rewrite (columns_back dfmt r dok).
      - rewrite map_map. apply map_ext_in. intros kv Hin. rewrite Forall_forall in Hd. destruct (Hd kv Hin) as (_ & L & _ & W). rewrite Forall_forall in W.
        apply W, nth_In. congruence. }
  2:{ now rewrite map_length, seq_length. }
  cbn [bind fst snd]. f_equal. f_equal. unfold dkeys. rewrite combine_enumerate, fold_left_map.
  transitivity (fold_left (fun d s => dset (fst s) (snd s) d) (map (fun kv => (fst kv, seen r (snd kv))) d) []).
  2:{ apply fold_dset_new; [|reflexivity]. unfold dkeys. rewrite map_map. exact Hn. }
  rewrite fold_left_map.
  assert (Ee : fold_left (fun c a => dset (fst (fst a, seen r (snd a))) (snd (fst a, seen r (snd a))) c) d []
    = fold_left (fun c a => dset (fst (fst (snd a), seen r (snd (snd a)))) (snd (fst (snd a), seen r (snd (snd a)))) c) (enumerate d) []).
  { transitivity (fold_left (fun c a => dset (fst (fst a, seen r (snd a))) (snd (fst a, seen r (snd a))) c) (map snd (enumerate d)) []).
    - unfold enumerate. now rewrite map_snd_combine by (now rewrite seq_length).
    - now rewrite fold_left_map. }
  rewrite Ee. clear Ee.
  assert (G : forall l d0, (forall jx, In jx l -> In jx (enumerate d)) ->
    fold_left (fun c (a : nat * (string * (shape * list (list fl)))) => dset (fst (snd a)) (if Nat.eqb (width (fst (snd (snd a)))) 1 then None else Some (width (fst (snd (snd a)))),
      fold_left (fun acc r0 => upd (fst r0) (nth (fst a) (snd r0) []) acc) (map (fun i => (i, map (map r) (map (fun kv : string * (shape * list (list fl)) => nth i (snd (snd kv)) []) d))) (seq 0 n)) (repeat (repeat fzero (width (fst (snd (snd a))))) n)) c) l d0
    = fold_left (fun c a => dset (fst (fst (snd a), seen r (snd (snd a)))) (snd (fst (snd a), seen r (snd (snd a)))) c) l d0).
  { induction l as [|[j [k [s a]]] l IH]; intros d0 Hl; [reflexivity|]. cbn [fold_left fst snd]. rewrite IH by (intros; apply Hl; now right). f_equal. f_equal.
    specialize (Hl _ (or_introl eq_refl)). apply in_enumerate in Hl. assert (Hj : j < length d) by (apply nth_error_Some; congruence).
    rewrite Forall_forall in Hd. destruct (Hd (k, (s, a))) as (_ & L & Wp & W); [eapply nth_error_In; eauto|]. cbn [fst snd] in *.
    unfold seen. cbn [fst snd]. f_equal.
    { destruct s as [w|]; cbn [width]; [|reflexivity]. now destruct (Nat.eqb w 1). }
    rewrite fold_left_map. cbn [fst snd].
    assert (Ec : forall i, nth j (map (map r) (map (fun kv : string * (shape * list (list fl)) => nth i (snd (snd kv)) []) d)) [] = map r (nth i a [])).
    { intros i. erewrite nth_error_nth; [reflexivity|]. rewrite !nth_error_map, Hl. reflexivity. }
    transitivity (fold_left (fun acc x => upd (fst x) (snd x) acc) (combine (seq 0 (length (map (map r) a))) (map (map r) a)) (repeat (repeat fzero (width s)) n)).
    - rewrite map_length, L. replace (map (map r) a) with (map (fun i => map r (nth i a [])) (seq 0 n)).
      + clear - Ec. generalize (repeat (repeat (@fzero fl) (width s)) n). generalize (seq 0 n). induction l as [|i l IH]; intros acc; [reflexivity|]. cbn [map combine fold_left fst snd]. rewrite Ec. apply IH.
      + rewrite <- L. rewrite <- (map_map (fun i => nth i a []) (map r)). now rewrite nth_seq_map.
    - exact (fold_upd (map (map r) a) [] (repeat (repeat fzero (width s)) n) (eq_trans (repeat_length _ _) (eq_trans (eq_sym L) (eq_sym (map_length _ _))))). }
  apply G. auto.
Qed.
End Data.

(** ** Points *)
Section File.
Context {fl : floats} (dfmt : fl -> string) (ofZ : Z -> fl) (toZ : fl -> Z) (r : fl -> fl).
Hypothesis fok : floats_ok fl.
Hypothesis hash : forall x : fl, char_in "#" (ffmt x) = false.

Definition node_words (kp : nat * list fl) : list string := str_of_nat (S (fst kp)) :: map ffmt (in_space (snd kp)).
Lemma next_row_words ws rest : ws <> [] -> forallb word ws = true -> Forall (fun w => char_in "#" w = false) ws ->
  next_row (row_line ws :: rest) = Some (ws, rest).
Proof.
  intros N W H. cbn [next_row]. rewrite cut_none by (apply char_in_join; [discriminate|exact H]). unfold row_line. rewrite split_ws_join by exact W.
  destruct ws; [congruence|reflexivity].
Qed.
Lemma nodes_lines n (kps : list (nat * list fl)) : (forall k, k <= n -> exists x : fl, fparse (str_of_nat k) = Some x /\ toZ x = Z.of_nat k) ->
  Forall (fun kp => fst kp < n /\ (length (snd kp) = 2 \/ length (snd kp) = 3)) kps ->
  exists ls, mapM avs_node_line kps = Ok ls /\ (forall rest, gen_rows (length kps) (ls ++ rest) = (map node_words kps, rest)) /\
    exists rows, mapM parse_floats (map node_words kps) = Ok rows /\
      map (fun row => toZ (hd fzero row)) rows = map (fun kp => Z.of_nat (S (fst kp))) kps /\ map (@tl fl) rows = map (fun kp => in_space (snd kp)) kps.
Proof.
  intros Hids. induction 1 as [|[k p] kps (Hk & Hp) _ (ls & E & G & rows & P & I & T)].
  - exists []. split; [reflexivity|]. split; [reflexivity|]. now exists [].
  - cbn [fst snd] in *.
    assert (El : avs_node_line (k, p) = Ok (row_line (node_words (k, p)))).
    { unfold avs_node_line, node_words, in_space. cbn [fst snd]. destruct Hp as [Hp|Hp]; repeat (destruct p as [|? p]; cbn [length] in Hp; try discriminate); reflexivity. }
    assert (W : forallb word (node_words (k, p)) = true) by (unfold node_words; cbn [forallb fst]; rewrite word_str_of_nat; now apply words_floats).
    exists (row_line (node_words (k, p)) :: ls). cbn [mapM]. rewrite El. cbn [bind]. rewrite E. split; [reflexivity|]. split.
    + intros rest. cbn [app length gen_rows]. rewrite next_row_words; [|discriminate|exact W|].
      * now rewrite G.
      * unfold node_words. constructor; [apply char_in_nat; [reflexivity|discriminate]|]. apply Forall_map, Forall_forall. intros x _. apply hash.
    + destruct (Hids (S k)) as (x & Ex & Tx); [lia|]. exists ((x :: in_space p) :: rows). cbn [map mapM]. unfold node_words at 1. cbn [fst snd].
      assert (Pw : parse_floats (str_of_nat (S k) :: map ffmt (in_space p)) = Ok (x :: in_space p)).
      { unfold parse_floats. cbn [mapM]. rewrite Ex. cbn [of_option bind]. change (mapM (fun t => of_option ValueError (@fparse fl t)) ?l) with (@parse_floats fl l). now rewrite parse_floats_ok. }
      rewrite Pw. cbn [bind]. rewrite P. split; [reflexivity|]. cbn [hd tl map fst snd]. split; f_equal; auto.
Qed.

Lemma nodes_back (pts : list (list fl)) : (forall k, k <= length pts -> exists x : fl, fparse (str_of_nat k) = Some x /\ toZ x = Z.of_nat k) ->
  Forall (fun p => length p = 2 \/ length p = 3) pts ->
  exists ls, mapM avs_node_line (enumerate pts) = Ok ls /\ forall rest,
    read_avs_nodes toZ (length pts) (ls ++ rest)
    = if Nat.eqb (length pts) 1 then Err IndexError else Ok (map (fun k => Z.of_nat (S k)) (seq 0 (length pts)), map in_space pts, rest).
Proof.
  intros Hids Hp. destruct (nodes_lines (length pts) (enumerate pts) Hids) as (ls & E & G & rows & P & I & T).
  { apply Forall_forall. intros [k p] Hin. split.
    - apply in_combine_l, in_seq in Hin. cbn [fst]. lia.
    - apply in_combine_r in Hin. rewrite Forall_forall in Hp. now apply Hp. }
  exists ls. split; [exact E|]. intros rest. unfold read_avs_nodes. destruct pts as [|p pts]; [injection E as <-; reflexivity|].
  assert (Le : length (enumerate (p :: pts)) = length (p :: pts)) by (unfold enumerate; rewrite combine_length, seq_length; apply Nat.min_id).
  rewrite Le in G. cbn [length] in *. rewrite G. cbn [fst snd].
  assert (L4 : Forall (fun ws => length ws = 4) (map node_words (enumerate (p :: pts)))).
  { apply Forall_map, Forall_forall. intros [k q] Hin. apply in_combine_r in Hin. rewrite Forall_forall in Hp. specialize (Hp q Hin).
    unfold node_words, in_space. cbn [fst snd length]. rewrite map_length. destruct Hp as [Hp|Hp]; rewrite Hp; cbn [Nat.eqb]; [rewrite app_length|]; rewrite Hp; reflexivity. }
  assert (Hh : length (hd [] (map node_words (enumerate (p :: pts)))) = 4) by (rewrite Forall_forall in L4; apply L4; left; reflexivity).
  rewrite Hh. replace (forallb _ _) with true by (symmetry; apply forallb_forall; intros ws Hin; rewrite Forall_forall in L4; now apply Nat.eqb_eq, L4).
  rewrite map_length, Le, orb_false_r. destruct pts as [|q pts]; [reflexivity|]. cbn [length Nat.leb Nat.eqb]. rewrite P. cbn [bind]. rewrite I, T.
  do 3 f_equal.
  - rewrite <- (map_map fst (fun k => Z.of_nat (S k))). unfold enumerate. rewrite map_fst_combine by (now rewrite seq_length). reflexivity.
  - now rewrite (map_enumerate_snd in_space).
Qed.

End File.

(** ** Materials and other cell data *)
Section Cells.
Context {fl : floats} (ofZ : Z -> fl).
Lemma pick_ok (d : dict (cdata fl)) bs : Forall (fun kv => cell_array_ok bs (snd kv)) d -> bs <> [] -> avs_pick d = Ok (option_map fst (first_ints d)).
Proof.
  intros H N. unfold avs_pick.
  assert (E : mapM (fun kv => match snd kv with CInts (_ :: _) => Ok (fst kv, true) | CReals _ (_ :: _) => Ok (fst kv, false) | _ => Err IndexError end) d
    = Ok (map (fun kv => (fst kv, match snd kv with CInts _ => true | CReals _ _ => false end)) d)).
  { apply mapM_Forall2. induction H as [|[k a] d Ha _ IH]; cbn [map]; constructor; auto. cbn [fst snd] in *. destruct a as [v|s v].
    - destruct Ha; [congruence|reflexivity].
    - destruct Ha as [_ Ha]. destruct Ha; [congruence|reflexivity]. }
  rewrite E. cbn [bind]. f_equal. clear. induction d as [|[k [v|s v]] d IH]; cbn; auto.
Qed.
Lemma first_ints_get (d : dict (cdata fl)) k v : NoDup (dkeys d) -> first_ints d = Some (k, v) -> dget k d = Some (CInts v).
Proof.
  intros N H. apply In_dget; auto. clear N. induction d as [|[k' [v'|s v']] d IH]; [discriminate| |].
  - cbn [first_ints] in H. injection H as <- <-. now left.
  - right. auto.
Qed.
Lemma others_after (d : dict (cdata fl)) k : ~ In k (dkeys d) -> avs_others ofZ (Some k) d = other_data ofZ false d.
Proof.
  unfold avs_others. induction d as [|[k' a] d IH]; [reflexivity|]. cbn [dkeys map fst In]. intros H. cbn [filter fst].
  destruct (String.eqb_spec k' k) as [->|]; [tauto|]. cbn [negb map fst snd]. rewrite IH by tauto. destruct a; reflexivity.
Qed.
Lemma others_some (d : dict (cdata fl)) k v : NoDup (dkeys d) -> first_ints d = Some (k, v) -> avs_others ofZ (Some k) d = other_data ofZ true d.
Proof.
  intros N. induction d as [|[k' a] d IH]; [discriminate|]. cbn [dkeys map fst] in N. inversion N as [|? ? N1 N2]; subst. destruct a as [w|s w]; cbn [first_ints other_data]; intros H.
  - injection H as <- <-. rewrite <- (others_after d k') by exact N1. unfold avs_others. cbn [filter fst]. now rewrite String.eqb_refl.
  - rewrite <- IH by auto. unfold avs_others. cbn [filter fst]. destruct (String.eqb_spec k' k) as [->|]; [|reflexivity].
    exfalso. apply N1. assert (In (k, CInts v) d) by (apply dget_In, first_ints_get; auto). apply in_map_iff. now exists (k, CInts v).
Qed.
Lemma others_none (d : dict (cdata fl)) : first_ints d = None -> avs_others ofZ None d = other_data ofZ true d.
Proof.
  unfold avs_others. induction d as [|[k a] d IH]; [reflexivity|]. destruct a as [w|s w]; cbn [first_ints other_data filter negb map fst snd]; intros H; [discriminate|]. now rewrite <- (IH H).
Qed.
Lemma concat_count {A} bs (v : list (list A)) : Forall2 (fun b l => length l = blen b) bs v -> length (concat v) = length (all_cells bs).
Proof. induction 1 as [|b l bs v H _ IH]; [reflexivity|]. cbn [concat]. rewrite all_cells_cons, !app_length, map_length, IH, H. reflexivity. Qed.
Lemma others_ok bs (d : dict (cdata fl)) : Forall (fun kv => plain_label (fst kv) /\ cell_array_ok bs (snd kv)) d -> forall b,
  Forall (fun kv => plain_label (fst kv) /\ array_ok (length (all_cells bs)) (snd kv)) (other_data ofZ b d).
Proof.
  induction 1 as [|[k a] d [Hk Ha] _ IH]; intros b; [constructor|]. destruct a as [v|s v]; cbn [other_data fst snd] in *.
  - destruct b; auto. constructor; auto. cbn [fst snd]. split; auto. unfold array_ok. cbn [fst snd width]. rewrite map_length. split; [now apply concat_count|]. split; [lia|].
    apply Forall_map, Forall_forall. reflexivity.
  - constructor; auto. cbn [fst snd]. split; auto. destruct Ha as [Hw Ha]. unfold array_ok. cbn [fst snd]. split; [|split; auto].
    + apply concat_count. clear -Ha. induction Ha as [|? ? ? ? [? _] _ IH]; constructor; auto.
    + apply Forall_concat. clear -Ha. induction Ha as [|? ? ? ? [_ ?] _ IH]; constructor; auto.
Qed.
Lemma others_keys (d : dict (cdata fl)) : NoDup (dkeys d) -> forall b, NoDup (dkeys (other_data ofZ b d)).
Proof.
  assert (I : forall (d : dict (cdata fl)) b k, In k (dkeys (other_data ofZ b d)) -> In k (dkeys d)).
  { induction d0 as [|[k' [v|s v]] d0 IH]; intros b k H; [destruct H| |]; cbn [other_data dkeys map fst In] in *.
    - destruct b; [right; eapply IH; eauto|]. destruct H as [H|H]; [now left|right; eapply IH; eauto].
    - destruct H as [H|H]; [now left|right; eapply IH; eauto]. }
  induction d as [|[k a] d IH]; intros N b; [constructor|]. cbn [dkeys map fst] in N. inversion N; subst. destruct a as [v|s v]; cbn [other_data].
  - destruct b; auto. constructor; auto. intros X. apply I in X. contradiction.
  - constructor; auto. intros X. apply I in X. contradiction.
Qed.
Lemma sum_zero n (d : dict (shape * list (list fl))) : Forall (fun kv => plain_label (fst kv) /\ array_ok n (snd kv)) d ->
  data_sum d = 0 <-> d = [].
Proof.
  intros H. destruct H as [|kv d (_ & _ & Hw & _) _]; [split; reflexivity|]. split; [|discriminate]. unfold data_sum. cbn [map sum_nat]. lia.
Qed.

End Cells.

Lemma avs_roundtrip {fl : floats} (dfmt : fl -> string) (ofZ : Z -> fl) (toZ : fl -> Z) (r : fl -> fl) v (m : avs_mesh fl) : avs_floats fl dfmt toZ r (length (av_points m)) -> avs_good ofZ m ->
  exists file, write_avs dfmt ofZ v m = Ok file /\
  read_avs toZ file =
    if Nat.eqb (length (av_points m)) 1 then Err IndexError
    else
      let bs := regroup (all_cells (av_cells m)) in
      let others := map (fun kv => (fst kv, seen r (snd kv))) (other_data ofZ true (av_cdata m)) in
      do cd <- match others, bs with
               | [], _ => Ok []
               | _, [_] => Ok (map (fun kv => (fst kv, (fst (snd kv), [snd (snd kv)]))) others)
               | _, [] => Err ValueError
               | _, _ => Err TypeError
               end;
      Ok (AvsOut (map in_space (av_points m)) bs (data_for bs (materials m)) (map (fun kv => (fst kv, seen r (snd kv))) (av_pdata m)) cd).
Proof.
  intros (fok & hash & dok & Hids) (Hp & Hb & Np & Hpd & Nc & Hcd & He).
  assert (Hkey : avs_pick (av_cdata m) = Ok (option_map fst (first_ints (av_cdata m)))).
  { destruct (av_cells m) as [|b bs] eqn:Eb; [now rewrite He|]. apply (pick_ok _ (b :: bs)); [|discriminate]. eapply Forall_impl; [|exact Hcd]. now intros ? []. }
  assert (Hm : avs_material (option_map fst (first_ints (av_cdata m))) (av_cdata m) (sum_nat (map blen (av_cells m))) = Ok (materials m) /\ length (materials m) = length (all_cells (av_cells m))).
  { unfold materials. destruct (first_ints (av_cdata m)) as [[k w]|] eqn:Ef; cbn [option_map fst].
    - assert (G := first_ints_get _ _ _ Nc Ef). rewrite Forall_forall in Hcd. destruct (Hcd (k, CInts w)) as [[Wk _] Ha]; [now apply dget_In|]. cbn [fst snd cell_array_ok] in *. split.
      + unfold avs_material. rewrite G. destruct k; [discriminate|reflexivity].
      + now apply concat_count.
    - split; [|apply map_length]. unfold avs_material. f_equal. rewrite <- all_cells_length. clear. induction (all_cells (av_cells m)) as [|x l IH]; [reflexivity|]. cbn [length repeat map]. now rewrite IH. }
  assert (Ho : avs_others ofZ (option_map fst (first_ints (av_cdata m))) (av_cdata m) = other_data ofZ true (av_cdata m)).
  { destruct (first_ints (av_cdata m)) as [[k w]|] eqn:Ef; cbn [option_map fst]; [eapply others_some; eauto|now apply others_none]. }
  destruct Hm as [Hm Lm]. unfold write_avs. rewrite Hkey. cbn [bind]. rewrite Hm. cbn [bind]. rewrite Ho. clear Hkey Hm Ho.
  set (others := other_data ofZ true (av_cdata m)). assert (Hok := others_ok ofZ _ _ Hcd true). fold others in Hok. assert (Nok := others_keys ofZ _ Nc true). fold others in Nok.
  destruct (nodes_back toZ fok hash (av_points m) Hids Hp) as (nl & En & Rn). rewrite En. cbn [bind].
  set (n := length (av_points m)) in *.
  rewrite <- all_cells_length. set (nc := length (all_cells (av_cells m))) in *.
  destruct (data_back dfmt r dok n (av_pdata m) Np Hpd) as (pl & Ep & Rp). destruct (data_back dfmt r dok nc others Nok Hok) as (ol & Eo & Ro).
  set (P := if Nat.eqb (data_sum (av_pdata m)) 0 then [] else pl). set (C := if Nat.eqb (data_sum others) 0 then [] else ol).
  assert (EP : (if Nat.eqb (data_sum (av_pdata m)) 0 then Ok [] else avs_data_lines dfmt n (av_pdata m)) = Ok P) by (unfold P; destruct (Nat.eqb (data_sum (av_pdata m)) 0); auto).
  assert (EC : (if Nat.eqb (data_sum others) 0 then Ok [] else avs_data_lines dfmt nc others) = Ok C) by (unfold C; destruct (Nat.eqb (data_sum others) 0); auto).
  destruct (cells_back n (materials m) (av_cells m) (P ++ C) Hb Lm) as (cl & Ec & Rc). rewrite Ec. cbn [bind]. rewrite EP. cbn [bind]. rewrite EC. cbn [bind].
  eexists. split; [reflexivity|].
  set (hd5 := [n; nc; data_sum (av_pdata m); data_sum others; 0]).
  assert (Hh : next_row ([("# Written by meshio v" ++ v)%string; row_line (map str_of_nat hd5)] ++ nl ++ cl ++ P ++ C) = Some (map str_of_nat hd5, nl ++ cl ++ P ++ C)).
  { cbn [app]. change (next_row (("# Written by meshio v" ++ v)%string :: ?x)) with (next_row x). apply next_row_words; [discriminate| |].
    - apply forallb_forall. intros s Hs. apply in_map_iff in Hs as (k & <- & _). apply word_str_of_nat.
    - apply Forall_map, Forall_forall. intros k _. apply char_in_nat; [reflexivity|discriminate]. }
  unfold read_avs. rewrite Hh. cbn [of_option bind fst snd].
  assert (Ei : parse_ints (map str_of_nat hd5) = Ok (map Z.of_nat hd5)) by (rewrite <- (parse_ints_ok (map Z.of_nat hd5)), map_map; f_equal; apply map_ext; apply str_of_nat_Z).
  rewrite Ei. unfold hd5. cbn [bind map]. rewrite Nat2Z.id, Rn. destruct (Nat.eqb n 1); [reflexivity|]. cbn [bind].
  rewrite Nat2Z.id. unfold nc at 1. rewrite Rc. cbn [bind].
  assert (EPr : (if (Z.of_nat (data_sum (av_pdata m)) =? 0)%Z then Ok ([], P ++ C) else read_avs_data n (id_map (map (fun k => Z.of_nat (S k)) (seq 0 n))) (P ++ C))
    = Ok (map (fun kv => (fst kv, seen r (snd kv))) (av_pdata m), C)).
  { assert (Z0 := sum_zero n (av_pdata m) Hpd). unfold P. destruct (Nat.eqb_spec (data_sum (av_pdata m)) 0) as [E|E].
    - rewrite E. cbn [Z.of_nat Z.eqb]. apply Z0 in E. rewrite E. reflexivity.
    - destruct (Z.eqb_spec (Z.of_nat (data_sum (av_pdata m))) 0); [lia|]. apply Rp. }
  rewrite EPr. cbn [bind fst snd]. fold nc.
  assert (Z0 := sum_zero nc others Hok). destruct (Nat.eqb_spec (data_sum others) 0) as [E|E].
  - rewrite E. cbn [Z.of_nat Z.eqb bind]. apply Z0 in E. rewrite E. reflexivity.
  - destruct (Z.eqb_spec (Z.of_nat (data_sum others)) 0); [lia|]. unfold C. rewrite <- (app_nil_r ol), Ro. cbn [bind fst snd].
    destruct (map (fun kv => (fst kv, seen r (snd kv))) others) as [|x l] eqn:El.
    + apply map_eq_nil in El. exfalso. apply E, Z0, El.
    + destruct (regroup (all_cells (av_cells m))) as [|b1 [|b2 bs]]; reflexivity.
Qed.
