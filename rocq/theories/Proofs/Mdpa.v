From Verif.Lib Require Import Base Facts Facts2 Text TextFacts Lines LinesFacts BytesFacts.
From Verif.Model Require Import Core Tetgen Snoc Mdpa.
From Verif.Spec Require Import Core Blocks Mdpa.
From Verif.Proofs Require Import Blocks Gmsh Gmsh22 Tetgen Su2 Snoc.
Local Arguments str_of_nat : simpl never.
Local Arguments str_of_Z : simpl never.

Lemma char_in_app c a b : char_in c (a ++ b) = char_in c a || char_in c b.
Proof. induction a as [|x a IH]; [reflexivity|]. cbn [append char_in]. rewrite IH. now rewrite orb_assoc. Qed.
Lemma char_in_join c l : c <> " "%char -> Forall (fun s => char_in c s = false) l -> char_in c (join " " l) = false.
Proof.
  intros N. induction 1 as [|x l Hx Hl IH]; [reflexivity|]. destruct l as [|y l]; [exact Hx|].
  rewrite join_cons, !char_in_app, Hx, IH. cbn [char_in orb]. destruct (Ascii.eqb_spec c " "); [congruence|reflexivity].
Qed.
Lemma char_in_nat c k : is_digit c = false -> c <> "-"%char -> char_in c (str_of_nat k) = false.
Proof. intros. rewrite str_of_nat_Z. now apply char_in_str_of_Z. Qed.

(** ** Names *)
Lemma names_ok t w d dim3 : In (t, (w, d)) mdpa_types -> (d = 3 -> dim3 = true) ->
  exists n, entity_name dim3 t = Ok n /\
    (let e := ("Begin Elements " ++ n)%string in
     strip e = e /\ startswith e "Begin Nodes" = false /\ startswith e "Begin Elements" = true /\
     (entity_type e = Some t \/ entity_type e = None /\ zget (Z.of_nat w) inverse_num_nodes = Some t)).
Proof.
  intros H Hd. 
  repeat (destruct H as [H|H]; [injection H as <- <- <-; destruct dim3;
    [|try (specialize (Hd eq_refl); discriminate)];
    (eexists; split; [vm_compute; reflexivity|]; split; [vm_compute; reflexivity|]; split; [vm_compute; reflexivity|]; split; [vm_compute; reflexivity|];
     first [left; vm_compute; reflexivity | right; split; vm_compute; reflexivity])|]).
  destruct H.
Qed.

Lemma file_dim_ok bs : Forall mdpa_block bs ->
  exists dim3, file_dim3 bs = Ok dim3 /\ forall b w, In b bs -> In (btype b, (w, 3)) mdpa_types -> dim3 = true.
Proof.
  induction 1 as [|b bs (w & d & Hb & _) _ (dim3 & E & IH)]; [exists false; split; [reflexivity|easy]|].
  assert (X : exists n, dget (btype b) meshio_to_mdpa_type = Some n /\ dget n local_dimension_types = Some d /\
    forall w', In (btype b, (w', 3)) mdpa_types -> d = 3).
  { set (t := btype b) in *. clearbody t. clear - Hb.
    repeat (destruct Hb as [Hb|Hb]; [injection Hb as <- <- <-; eexists; split; [reflexivity|]; split; [reflexivity|];
      intros w'; cbn; intros X; repeat (destruct X as [X|X]; [congruence|]); destruct X|]). destruct Hb. }
  destruct X as (n & E1 & E2 & X). cbn [file_dim3]. rewrite E1. cbn [of_option bind]. rewrite E2. cbn [of_option bind].
  destruct (Nat.eqb_spec d 3) as [->|N].
  - exists true. split; [reflexivity|]. auto.
  - exists dim3. split; [exact E|]. intros b' w' [<-|Hin] H'; [|eauto]. apply X in H'. congruence.
Qed.

(** ** Lines of elements *)
Lemma elem_words k (c : cell) : split_ws (elem_line (k, c)) = str_of_nat (S k) :: "0"%string :: map (fun i => str_of_Z (i + 1)) c.
Proof.
  unfold elem_line. cbn [fst snd]. rewrite str_char_app, split_ws_space by reflexivity.
  change (" 0  " ++ ?s)%string with (String " " (String "0" (String " " (String " " s)))).
  rewrite split_ws_word_space by (auto using word_str_of_nat). f_equal.
  change (String "0" (String " " ?s)) with ("0" ++ String " " s)%string.
  rewrite split_ws_word_space by reflexivity. rewrite split_ws_space by reflexivity. unfold row_line.
  f_equal. apply split_ws_join. rewrite <- (map_map (fun i => (i + 1)%Z) str_of_Z). apply words_ints.
Qed.

Lemma elem_ints k (c : cell) : parse_ints (split_ws (elem_line (k, c))) = Ok (Z.of_nat (S k) :: 0%Z :: map (fun i => (i + 1)%Z) c).
Proof.
  rewrite elem_words, str_of_nat_Z.
  replace (str_of_Z (Z.of_nat (S k)) :: "0"%string :: map (fun i : Z => str_of_Z (i + 1)) c)
    with (map str_of_Z (Z.of_nat (S k) :: 0%Z :: map (fun i => (i + 1)%Z) c)); [apply parse_ints_ok|].
  cbn [map]. now rewrite map_map.
Qed.

Lemma elem_start k (c : cell) e : startswith (elem_line (k, c)) (String "E" e) = false.
Proof. reflexivity. Qed.

Lemma read_elem_ok ty w rest : 0 < w -> forall rows k t bs,
  (t = Some ty \/ t = None /\ zget (Z.of_nat w) inverse_num_nodes = Some ty) -> Forall (fun c => length c = w) rows ->
  read_elem_lines t bs (map elem_line (combine (seq k (length rows)) rows) ++ "End Elements"%string :: rest)
  = Ok (fold_left (fun bs tc => snoc_cell bs (fst tc) (snd tc)) (map (pair ty) rows) bs, rest, "End Elements"%string).
Proof.
  intros Hw. induction rows as [|c rows IH]; intros k t bs Ht Hr.
  - cbn [length seq combine map app fold_left]. cbn [read_elem_lines]. reflexivity.
  - inversion Hr as [|? ? Hc Hr']; subst. cbn [length seq combine map app read_elem_lines fold_left fst snd].
    change (startswith (elem_line (k, c)) "End Elements" || startswith (elem_line (k, c)) "End Conditions") with false. cbv iota.
    rewrite elem_ints. cbn [bind].
    assert (En : (Z.of_nat (length (Z.of_nat (S k) :: 0%Z :: map (fun i => (i + 1)%Z) c)) - 2)%Z = Z.of_nat (length c)).
    { cbn [length]. rewrite map_length. lia. }
    rewrite En. clear En.
    assert (Et : match t with Some ty0 => Ok ty0 | None => of_option KeyError (zget (Z.of_nat (length c)) inverse_num_nodes) end = Ok ty).
    { destruct Ht as [->|[-> ->]]; reflexivity. }
    rewrite Et. cbn [bind]. destruct (Z.eqb_spec (Z.of_nat (length c)) 0); [lia|]. destruct (Z.ltb_spec (Z.of_nat (length c)) 0); [lia|].
    cbn [skipn]. rewrite map_map. rewrite (map_ext _ (fun i => i)) by (intros; lia). rewrite map_id.
    apply IH; auto.
Qed.

Lemma read_cells_ok dim3 t w d n bs k rows rest :
  In (t, (w, d)) mdpa_types -> (d = 3 -> dim3 = true) -> entity_name dim3 t = Ok n -> Forall (fun c => length c = w) rows ->
  read_mdpa_cells ("Begin Elements " ++ n) bs (map elem_line (combine (seq k (length rows)) rows) ++ "End Elements"%string :: rest)
  = Ok (fold_left (fun bs tc => snoc_cell bs (fst tc) (snd tc)) (map (pair t) rows) bs, rest).
Proof.
  intros Ht Hd En Hr. destruct (names_ok t w d dim3 Ht Hd) as (n' & E' & _ & _ & _ & X). assert (n' = n) by congruence. subst n'.
  unfold read_mdpa_cells. rewrite (read_elem_ok t w); auto.
  clear - Ht. repeat (destruct Ht as [Ht|Ht]; [injection Ht as <- <- <-; lia|]). destruct Ht.
Qed.

(** ** The loop *)
Section Loop.
Context {fl : floats}.
Definition loops pts bs ls (r : result (list (list fl) * list block)) := forall fuel, length ls <= fuel -> mdpa_loop fuel pts bs ls = r.

Lemma loops_nil pts bs : loops pts bs [] (Ok (pts, bs)).
Proof. intros [|fuel] _; reflexivity. Qed.

Lemma loops_skip pts bs l ls r : startswith (strip l) "Begin Nodes" = false -> startswith (strip l) "Begin Elements" = false ->
  startswith (strip l) "Begin Conditions" = false -> loops pts bs ls r -> loops pts bs (l :: ls) r.
Proof.
  intros A B C H [|fuel] L; [cbn in L; lia|]. cbn [mdpa_loop]. rewrite A, B, C. cbn [orb]. apply H. cbn in L. lia.
Qed.

Lemma loops_nodes pts bs ls pts' rest r : read_mdpa_nodes ls = Ok (pts', rest) -> length rest <= length ls ->
  loops pts' bs rest r -> loops pts bs ("Begin Nodes"%string :: ls) r.
Proof.
  intros E Ll H [|fuel] L; [cbn in L; lia|]. cbn [mdpa_loop].
  change (startswith (strip "Begin Nodes") "Begin Nodes") with true. cbv iota. rewrite E. cbn [bind fst snd]. apply H. cbn in L. lia.
Qed.

Lemma loops_cells pts bs e ls bs' rest r : strip e = e -> startswith e "Begin Nodes" = false -> startswith e "Begin Elements" = true ->
  read_mdpa_cells e bs ls = Ok (bs', rest) -> length rest <= length ls -> loops pts bs' rest r -> loops pts bs (e :: ls) r.
Proof.
  intros S N B E Ll H [|fuel] L; [cbn in L; lia|]. cbn [mdpa_loop]. rewrite S, N, B. cbn [orb]. rewrite E. cbn [bind fst snd]. apply H. cbn in L. lia.
Qed.

(** The blocks *)
Lemma loops_elements dim3 bs : forall pts k acc ls rest r,
  Forall mdpa_block bs -> (forall b w, In b bs -> In (btype b, (w, 3)) mdpa_types -> dim3 = true) ->
  write_elements dim3 k bs = Ok ls ->
  loops pts (fold_left (fun bs tc => snoc_cell bs (fst tc) (snd tc)) (all_cells bs) acc) rest r -> loops pts acc (ls ++ rest) r.
Proof.
  induction bs as [|b bs IH]; intros pts k acc ls rest r Hb Hd E H.
  - injection E as <-. exact H.
  - inversion Hb as [|? ? (w & d & Ht & Hr) Hb']; subst. cbn [write_elements] in E.
    assert (Hd3 : d = 3 -> dim3 = true) by (intros ->; apply (Hd b w); [now left|exact Ht]).
    destruct (names_ok _ _ _ dim3 Ht Hd3) as (n & En & S1 & S2 & S3 & _). cbv zeta in S1, S2, S3.
    rewrite En in E. cbn [bind] in E. destruct (write_elements dim3 (k + blen b) bs) as [ls'|] eqn:E'; [|discriminate].
    cbn [bind] in E. injection E as <-. cbn [app]. rewrite <- app_assoc. cbn [app].
    rewrite all_cells_cons, fold_left_app in H.
    eapply loops_cells; [exact S1|exact S2|exact S3| | |].
    + unfold blen. exact (read_cells_ok dim3 (btype b) w d n acc k (bdata b) _ Ht Hd3 En Hr).
    + rewrite app_length. cbn [length]. lia.
    + apply loops_skip; try reflexivity. eapply IH; eauto. intros b' w' Hin. apply (Hd b' w'). now right.
Qed.
Lemma write_elements_ok dim3 bs : forall k, Forall mdpa_block bs -> (forall b w, In b bs -> In (btype b, (w, 3)) mdpa_types -> dim3 = true) ->
  exists ls, write_elements dim3 k bs = Ok ls.
Proof.
  induction bs as [|b bs IH]; intros k Hb Hd; [eexists; reflexivity|]. inversion Hb as [|? ? (w & d & Ht & Hr) Hb']; subst. cbn [write_elements].
  destruct (names_ok _ _ _ dim3 Ht) as (n & -> & _). { intros ->. apply (Hd b w); [now left|exact Ht]. }
  destruct (IH (k + blen b) Hb') as (ls & ->). { intros b' w' Hin. apply (Hd b' w'). now right. }
  cbn [bind]. eexists. reflexivity.
Qed.

(** Data sections are skipped *)
Lemma rstrip_prefix s p : startswith (rstrip s) p = true -> startswith s p = true.
Proof.
  unfold startswith. revert p. induction s as [|a s IH]; intros p; [easy|]. cbn [rstrip].
  destruct p as [|b p]; [reflexivity|].
  assert (X : String.prefix (String b p) (String a (rstrip s)) = true -> String.prefix (String b p) (String a s) = true).
  { cbn [String.prefix]. destruct (ascii_dec b a); auto. }
  destruct (rstrip s) as [|c t] eqn:E; [|exact X].
  destruct (is_space a); [discriminate|]. exact X.
Qed.
Lemma strip_not l p : startswith (lstrip l) p = false -> startswith (strip l) p = false.
Proof. unfold strip. intros H. destruct (startswith (rstrip (lstrip l)) p) eqn:E; auto. apply rstrip_prefix in E. congruence. Qed.

Lemma row_start (k : nat) ws p : startswith (lstrip (row_line (str_of_nat k :: ws))) (String "B" p) = false.
Proof.
  assert (X : exists c s, str_of_nat k = String c s /\ is_digit c = true).
  { unfold str_of_nat. pose proof (str_of_N_all_digits (N.of_nat k)) as D. destruct (str_of_N (N.of_nat k)) as [|c s] eqn:E.
    - pose proof (word_str_of_N (N.of_nat k)) as W. rewrite E in W. discriminate.
    - cbn in D. apply andb_true_iff in D. exists c, s. tauto. }
  destruct X as (c & s & E & D). unfold row_line.
  assert (Y : exists s', join " " (str_of_nat k :: ws) = String c s').
  { rewrite E. destruct ws as [|w ws]; [exists s; reflexivity|]. rewrite join_cons. eexists. reflexivity. }
  destruct Y as (s' & ->). cbn [lstrip].
  assert (Z : is_space c = false).
  { destruct (is_space c) eqn:Z; auto. exfalso. clear - D Z. destruct c as [[][][][][][][][]]; vm_compute in D, Z; congruence. }
  rewrite Z. unfold startswith. cbn [String.prefix]. destruct (ascii_dec "B" c) as [<-|]; [vm_compute in D; discriminate|reflexivity].
Qed.

Lemma loops_data pts bs tag nds rest r : (tag = "NodalData" \/ tag = "ElementalData")%string ->
  loops pts bs rest r -> loops pts bs (flat_map (data_lines tag) nds ++ rest) r.
Proof.
  intros Ht. revert rest. induction nds as [|[name rows] nds IH]; intros rest H; [exact H|]. cbn [flat_map]. rewrite <- app_assoc.
  specialize (IH rest H). revert IH. generalize (flat_map (data_lines tag) nds ++ rest) as tl. clear H. intros tl IH.
  unfold data_lines. cbn [fst snd]. rewrite <- !app_assoc.
  assert (X : forall (w : string), (w = "Begin" \/ w = "End")%string -> forall p, In p ["Begin Nodes"; "Begin Elements"; "Begin Conditions"]%string ->
     startswith (strip (w ++ " " ++ tag ++ " " ++ name)%string) p = false).
  { intros w Hw p Hp. apply strip_not. destruct Hw as [-> | ->], Ht as [-> | ->]; repeat (destruct Hp as [<-|Hp]; [reflexivity|]); destruct Hp. }
  cbn [app].
  apply loops_skip; [apply (X "Begin"%string); cbn; auto..|].
  apply loops_skip; [reflexivity..|]. unfold enumerate. generalize 0 as k.
  induction rows as [|row rows IHr]; intros k.
  - cbn [length seq combine map app]. apply loops_skip; [apply (X "End"%string); cbn; auto..|]. apply loops_skip; [reflexivity..|]. exact IH.
  - cbn [length seq combine map app fst snd]. apply loops_skip; [apply strip_not, row_start..|]. apply IHr.
Qed.

(** Nodes *)
Hypothesis fok : floats_ok fl.
Hypothesis mok : mdpa_floats fl.

Definition node_text (kx : nat * list fl) : string := (" " ++ row_line (str_of_nat (S (fst kx)) :: map ffmt (snd kx)))%string.
Lemma node_words kx : split_ws (node_text kx) = str_of_nat (S (fst kx)) :: map ffmt (snd kx).
Proof.
  unfold node_text. rewrite str_char_app, split_ws_space by reflexivity. unfold row_line. apply split_ws_join.
  cbn [forallb]. rewrite word_str_of_nat. now apply words_floats.
Qed.
Lemma node_plain kx : contains "End Nodes" (node_text kx) = false.
Proof.
  apply contains_none. unfold node_text. rewrite str_char_app. cbn [char_in]. apply char_in_join; [discriminate|].
  constructor; [apply char_in_nat; [reflexivity|discriminate]|]. apply Forall_forall. intros s Hs. apply in_map_iff in Hs as (x & <- & _). apply mok.
Qed.
Lemma count_ok kxs rest : count_nodes (map node_text kxs ++ "End Nodes"%string :: rest) = Ok (length kxs).
Proof.
  induction kxs as [|kx kxs IH]; [reflexivity|]. cbn [map app count_nodes length]. now rewrite node_plain, IH.
Qed.
Lemma node_lines_ok kxs : Forall (fun kx => length (snd kx) = 3) kxs -> mapM node_line kxs = Ok (map node_text kxs).
Proof.
  induction 1 as [|[k p] kxs H _ IH]; [reflexivity|]. cbn [mapM map]. cbn [snd] in H. destruct p as [|x [|y [|z [|]]]]; try discriminate.
  cbn [node_line snd]. cbn [bind]. rewrite IH. reflexivity.
Qed.
Lemma nodes_ok kxs rest : Forall (fun kx => length (snd kx) = 3) kxs ->
  read_mdpa_nodes (fl := fl) (map node_text kxs ++ "End Nodes"%string :: rest) = Ok (map snd kxs, rest).
Proof.
  intros H. unfold read_mdpa_nodes. rewrite count_ok. cbn [bind].
  rewrite take_tokens_ok; [|apply solid_cons; reflexivity| |].
  - cbn [of_option bind fst snd].
    assert (X : exists xs, parse_floats (flat_map split_ws (map node_text kxs)) = Ok xs /\ map (@tl fl) (chunks 4 xs) = map snd kxs).
    { assert (Y : exists rows, parse_floats (flat_map split_ws (map node_text kxs)) = Ok (concat rows) /\ Forall (fun x => length x = 4) rows /\
        map (@tl fl) rows = map snd kxs).
      { induction H as [|[k p] kxs Hp Hk (rows & E & L & M)]; [exists []; repeat constructor|]. cbn [snd] in Hp.
        destruct (proj2 mok (S k)) as (i & Ei). exists ((i :: p) :: rows). split; [|split].
        - cbn [map flat_map]. rewrite node_words. cbn [fst snd]. unfold parse_floats. rewrite (mapM_app _ _ _ (i :: p) (concat rows)); [reflexivity| |exact E].
          cbn [mapM]. rewrite Ei. cbn [of_option bind]. pose proof (parse_floats_ok p fok) as X. unfold parse_floats in X. now rewrite X.
        - constructor; [cbn; now rewrite Hp|exact L].
        - cbn [map tl snd]. now rewrite M. }
      destruct Y as (rows & E & L & M). exists (concat rows). split; [exact E|]. now rewrite chunks_concat by (auto; lia). }
    destruct X as (xs & -> & E). cbn [bind]. change (strip (line1 ("End Nodes" :: rest))) with "End Nodes"%string. cbn [String.eqb Ascii.eqb Bool.eqb].
    rewrite E. reflexivity.
  - apply Forall_forall. intros l Hl. apply in_map_iff in Hl as (kx & <- & _). unfold blank. now rewrite node_words.
  - clear - fok H. induction H as [|kx kxs Hx _ IH]; [reflexivity|]. cbn [map flat_map length]. rewrite app_length, <- IH, node_words.
    cbn [length]. rewrite map_length, Hx. lia.
Qed.

Definition width (t : string) : nat := match dget t mdpa_types with Some (w, _) => w | None => 0 end.
Lemma width_ok t w d : In (t, (w, d)) mdpa_types -> width t = w.
Proof. intros H. repeat (destruct H as [H|H]; [injection H as <- <- <-; reflexivity|]). destruct H. Qed.
Lemma cells_width bs : Forall mdpa_block bs -> Forall (fun tc => length (snd tc) = width (fst tc)) (all_cells bs).
Proof.
  induction 1 as [|b bs (w & d & Ht & Hr) _ IH]; [constructor|]. rewrite all_cells_cons. apply Forall_app. split; [|exact IH].
  apply Forall_forall. intros tc H. apply in_map_iff in H as (c & <- & Hc). cbn. rewrite (width_ok _ _ _ Ht). rewrite Forall_forall in Hr. auto.
Qed.
Lemma types_known bs : Forall mdpa_block bs -> exists ds, mapM (fun b => cellblock_dim (btype b)) (regroup (all_cells bs)) = Ok ds.
Proof.
  intros H. assert (X : Forall (fun b => exists w d, In (btype b, (w, d)) mdpa_types) (regroup (all_cells bs))).
  { assert (Y : Forall (fun tc : string * cell => exists w d, In (fst tc, (w, d)) mdpa_types) (all_cells bs)).
    { induction H as [|b bs (w & d & Ht & _) _ IH]; [constructor|]. rewrite all_cells_cons. apply Forall_app. split; [|exact IH].
      apply Forall_forall. intros tc Hc. apply in_map_iff in Hc as (c & <- & _). eauto. }
    clear H. induction Y as [|[t c] l Hc _ IH]; [constructor|]. cbn [regroup]. destruct (regroup l) as [|[t' [|c' cs]] bs'].
    - repeat constructor. exact Hc.
    - constructor; auto.
    - destruct (String.eqb t t' && _); inversion IH; subst; repeat constructor; auto. }
  clear H. induction X as [|b l (w & d & Hb) _ (ds & IH)]; [eexists; reflexivity|]. cbn [mapM].
  assert (Z : exists z, cellblock_dim (btype b) = Ok z).
  { set (t := btype b) in *. clearbody t. repeat (destruct Hb as [Hb|Hb]; [injection Hb as <- <- <-; eexists; vm_compute; reflexivity|]). destruct Hb. }
  destruct Z as (z & ->). cbn [bind]. rewrite IH. eexists. reflexivity.
Qed.

Theorem mdpa_roundtrip (m : mdpa_mesh fl) :
  Forall (fun p => length p = 2 \/ length p = 3) (mm_points m) -> Forall mdpa_block (mm_cells m) ->
  exists file, write_mdpa m = Ok file /\ read_mdpa file = Ok (map in_space (mm_points m), regroup (all_cells (mm_cells m))).
Proof.
  intros Hp Hb. destruct m as [pts bs pd cd]. cbn [mm_points mm_cells] in *. unfold write_mdpa. cbn [mm_points mm_cells mm_point_data mm_cell_data].
  destruct (file_dim_ok bs Hb) as (dim3 & -> & Hd). cbn [bind].
  assert (H3 : Forall (fun kx : nat * list fl => length (snd kx) = 3) (enumerate (map in_space pts))).
  { unfold enumerate. apply Forall_forall. intros [k p] H. apply in_combine_r in H. apply in_map_iff in H as (q & <- & Hq).
    rewrite Forall_forall in Hp. cbn [snd]. unfold in_space. destruct (Hp q Hq) as [E|E]; rewrite E; cbn [Nat.eqb]; [|exact E]. rewrite app_length, E. reflexivity. }
  fold (@in_space fl).
  rewrite node_lines_ok by exact H3. cbn [bind]. destruct (write_elements_ok dim3 bs 0 Hb Hd) as (ls & El). rewrite El. cbn [bind].
  eexists. split; [reflexivity|].
  unfold read_mdpa. 
  match goal with |- context [mdpa_loop _ [] [] ?l] => set (file := l) end.
  assert (L : loops [] [] file (Ok (map in_space pts, regroup (all_cells bs)))).
  { unfold file. clear file. cbn [app]. do 7 (apply loops_skip; [reflexivity..|]).
    eapply loops_nodes; [apply nodes_ok; exact H3| |].
    - rewrite app_length. cbn [length]. lia.
    - apply loops_skip; [reflexivity..|].
      replace (map snd (enumerate (map in_space pts))) with (map in_space pts).
      2:{ unfold enumerate. now rewrite map_snd_combine by now rewrite seq_length. }
      eapply loops_elements; [exact Hb|exact Hd|exact El|].
      apply loops_data; [now left|]. rewrite <- (app_nil_r (flat_map _ cd)). apply loops_data; [now right|].
      pose proof (snoc_fold width (all_cells bs) []) as X. cbn [regroup app] in X. rewrite X by now apply cells_width. apply loops_nil. }
  rewrite (L _ (le_n _)). cbn [bind snd]. destruct (types_known bs Hb) as (ds & ->). reflexivity.
Qed.
End Loop.
