(** Whole Nastran files (C44). *)
From Coq Require Import Lia ZArith NArith.
From Verif.Lib Require Import Base Facts Facts2 Text TextFacts Lines LinesFacts Hex BytesFacts Perm.
From Verif.Model Require Import Core Tables Abaqus Snoc Nastran.
From Verif.Spec Require Import Core Blocks Nastran.
From Verif.Proofs Require Import XdmfFile Core Blocks Snoc Mdpa Abaqus AbaqusLines Gmsh Gmsh22 NetgenFile Nastran.
Import Model.Nastran Spec.Nastran.

Local Arguments str_of_Z : simpl never.
Local Arguments str_of_nat : simpl never.
Local Arguments hex_of_Z : simpl never.
Local Open Scope nat_scope.

(** ** The order of the nodes *)
Definition order_length (t : string) (n : nat) : Prop :=
  (smem t ["CTRAX6"; "CTRIAX6"] = true -> n = 6) /\ (t = "CHEXA_" -> n = 20) /\ (t = "CPENTA_" -> n = 15).
Lemma orders t c : order_length t (length c) ->
  exists c1, to_nastran_ordering t c = Ok c1 /\ length c1 = length c /\ to_vtk_ordering t c1 = Ok c /\ (forall i, In i c1 -> In i c).
Proof.
  intros (H1 & H2 & H3). unfold to_nastran_ordering, to_vtk_ordering.
  destruct (smem t ["CTRAX6"; "CTRIAX6"]).
  - destruct (permute_inverse 6 [0;3;1;4;2;5] [0;2;4;1;3;5] c eq_refl (H1 eq_refl)) as (r & E & L & B). exists r. rewrite E, B, L, (H1 eq_refl). repeat split; auto. intros i. now apply permute_In with (1 := E).
  - destruct (String.eqb_spec t "CHEXA_") as [Et|].
    + destruct (permute_inverse 20 hexa_order hexa_order c eq_refl (H2 Et)) as (r & E & L & B). exists r. rewrite E, B, L, (H2 Et). repeat split; auto. intros i. now apply permute_In with (1 := E).
    + destruct (String.eqb_spec t "CPENTA_") as [Et|].
      * destruct (permute_inverse 15 penta_order penta_order c eq_refl (H3 Et)) as (r & E & L & B). exists r. rewrite E, B, L, (H3 Et). repeat split; auto. intros i. now apply permute_In with (1 := E).
      * exists c. auto.
Qed.
Record nas_type (t nt : string) (n : nat) : Prop := {
  nt_get : dget t meshio_to_nastran_type = Some nt; nt_nodes : dget t num_nodes_per_cell = Some n; nt_back : dget nt nastran_to_meshio_type = Some t;
  nt_head : heads "C" nt; nt_word : word nt = true; nt_len : String.length nt <= 7; nt_comma : char_in "," nt = false; nt_grid : smem nt ["GRID"; "GRID*"] = false;
  nt_bars : smem nt bars = true -> n = 2; nt_20 : 1 <= n <= 20; nt_order : order_length nt n;
  nt_sgrid : smem (nt ++ "*")%string ["GRID"; "GRID*"] = false; nt_sdict : dmem (nt ++ "*")%string nastran_to_meshio_type = false; nt_sword : word (nt ++ "*")%string = true;
  nt_scomma : char_in "," (nt ++ "*")%string = false; nt_sorder : forall c, to_nastran_ordering (nt ++ "*")%string c = Ok c }.
Lemma starts_C s : startswith s "C" = true -> heads "C" s.
Proof. destruct s as [|a s]; [discriminate|]. unfold startswith. cbn [prefix]. destruct (ascii_dec "C" a) as [<-|]; [eexists; reflexivity|discriminate]. Qed.
Lemma nas_type_of t : In t (dkeys meshio_to_nastran_type) -> exists nt n, nas_type t nt n.
Proof.
  intros H. assert (F := proj1 (forallb_forall _ _) type_facts t H). unfold type_fact in F.
  destruct (dget t meshio_to_nastran_type) as [nt|] eqn:E1; [|discriminate]. destruct (dget t num_nodes_per_cell) as [n|] eqn:E2; [|discriminate].
  rewrite !andb_true_iff, !negb_true_iff, !orb_true_iff, !negb_true_iff, !Nat.leb_le, !Nat.eqb_eq in F. exists nt, n.
  destruct F as ((((((((((((((((F1 & F2) & F3) & F4) & F5) & F6) & F7) & F8) & F9) & F10) & F11) & F12) & F13) & F14) & F15) & F16) & F17).
  assert (B : dget nt nastran_to_meshio_type = Some t) by (destruct (dget nt nastran_to_meshio_type) as [t'|]; [apply String.eqb_eq in F1; now subst|discriminate]).
  constructor; auto.
  - now apply starts_C.
  - intros X. destruct F7; [congruence|auto].
  - unfold order_length. repeat split; [congruence| |]; intros ->; [destruct F15; [discriminate|auto]|destruct F16; [discriminate|auto]].
  - intros c. unfold to_nastran_ordering. unfold smem in F17 |- *. cbn [existsb] in *. rewrite !orb_false_iff in F17. destruct F17 as (X1 & X2 & X3 & X4 & _). rewrite X1, X2. cbn [orb]. now rewrite X3, X4.
Qed.

(** ** Data that belong to growing blocks *)
Lemma snoc_last bs b t c : snoc_cell (bs ++ [b]) t c = if String.eqb (btype b) t then bs ++ [Block t (bdata b ++ [c])] else bs ++ [b; Block t [c]].
Proof.
  induction bs as [|b1 bs IH]; [reflexivity|]. cbn [app snoc_cell]. destruct (bs ++ [b]) as [|b2 r] eqn:E; [destruct bs; discriminate|]. rewrite IH. destruct (String.eqb (btype b) t); reflexivity.
Qed.
Definition same_as_last (bs : list block) (t : string) : bool := match last_type bs with Some t' => String.eqb t' t | None => false end.
Lemma snoc_data {V} bs t c (d : list (list V)) x : map (@length V) d = map blen bs ->
  exists d', (if same_as_last bs t then extend_last x d else Ok (d ++ [[x]])) = Ok d' /\ map (@length V) d' = map blen (snoc_cell bs t c) /\ concat d' = concat d ++ [x].
Proof.
  intros H. destruct bs as [|b bs] using rev_ind.
  - destruct d; [|discriminate]. exists [[x]]. auto.
  - clear IHbs. destruct d as [|y d] using rev_ind; [rewrite map_app in H; destruct bs; discriminate|]. clear IHd. rewrite !map_app in H. cbn [map] in H. apply app_inj_tail in H as [H1 H2].
    unfold same_as_last, last_type. rewrite rev_app_distr. cbn [rev app]. rewrite snoc_last. unfold extend_last. rewrite rev_app_distr. cbn [rev app]. rewrite rev_involutive.
    destruct (String.eqb (btype b) t).
    + eexists. split; [reflexivity|]. rewrite !map_app, !concat_app. cbn [map concat]. rewrite !app_nil_r, !app_length, H1. cbn [length]. unfold blen in *. cbn [bdata]. rewrite app_length. cbn [length]. rewrite H2. now rewrite app_assoc.
    + eexists. split; [reflexivity|]. rewrite !map_app, !concat_app. cbn [map concat]. rewrite !app_nil_r, H1, H2. rewrite <- app_assoc. auto.
Qed.
Lemma regroup_map f (l : list (string * cell)) : (forall c : cell, length (f c) = length c) ->
  regroup (map (fun tc => (fst tc, f (snd tc))) l) = map (fun b => Block (btype b) (map f (bdata b))) (regroup l).
Proof.
  intros H. induction l as [|[t c] l IH]; [reflexivity|]. cbn [map regroup fst snd]. rewrite IH. destruct (regroup l) as [|[t' [|c' cs]] bs]; try reflexivity.
  cbn [map btype bdata]. rewrite !H. destruct (String.eqb t t' && _); reflexivity.
Qed.

Section Nastran.
Context {fl : floats}.
Variable ffix : fl -> string.
Lemma done_app a b (s : @nas_state fl) : done_all (a ++ b) s = do s1 <- done_all a s; done_all b s1.
Proof. revert s; induction a as [|C a IH]; intros s; [reflexivity|]. cbn [app done_all]. destruct (card_done C s); [apply IH|reflexivity]. Qed.
(** The body of a file *)
Lemma body_read cards rowss n : Forall2 card_in cards rowss ->
  (do ll <- skip_lines (S n) (concat cards ++ ["ENDDATA"]);
   if startswith (fst ll) "ENDDATA" then Ok nas_start else read_cards ([], row_of (fst ll)) nas_start (snd ll)) = done_all (map card_rows rowss) (@nas_start fl).
Proof.
  intros H. assert (R := read_all cards rowss H ([], [Some "X"]) (@nas_start fl)). assert (HC : closed ([], [Some "X"])) by (unfold closed; cbn; lia). specialize (R HC).
  cbn [done_all] in R. change (card_done ([], [Some "X"]) (@nas_start fl)) with (Ok (@nas_start fl)) in R. cbn [bind] in R. rewrite <- R. clear R.
  destruct H as [|ls rows cards rowss C H]; [reflexivity|]. destruct C as [F Rw L Z]. destruct F as (l & ls' & -> & Hh & Hc). inversion Rw as [|? r ? rows' (Hs & _) _]; subst.
  cbn [concat app skip_lines read_cards]. rewrite Hs. cbn [bind fst snd]. rewrite (continued_head _ l Hh HC). cbn [bind]. change (card_done ([], [Some "X"]) (@nas_start fl)) with (Ok (@nas_start fl)). cbn [bind].
  assert (E : startswith l "ENDDATA" = false) by (destruct Hh as (a & Ha & _ & _ & NE); now apply (starts_head a)). rewrite E. reflexivity.
Qed.

(** ** Cells of the format fixed-small *)
Definition width_of (t : string) : nat := match dget t num_nodes_per_cell with Some n => n | None => 0 end.
Definition ref_text (r : option Z) : string := match r with Some z => str_of_Z z | None => "" end.
Definition data_ok {V} (l : list (string * cell)) (d : list (list V)) (flat : list V) : Prop := map (@length V) d = map blen (regroup l) /\ concat d = flat.
Record state_ok (s : @nas_state fl) (pts : list (Z * list fl)) (prefs : list Z) (l : list (string * cell)) (ids : list Z) (refs : option (list Z)) : Prop := {
  so_points : ns_points s = pts; so_prefs : ns_prefs s = prefs; so_cells : ns_cells s = regroup l; so_ids : data_ok l (ns_ids s) ids;
  so_refs : match refs with Some r => data_ok l (ns_crefs s) r | None => ns_crefs s = [] end;
  so_width : Forall (fun tc => length (snd tc) = width_of (fst tc)) l }.
Definition opt_snoc {A} (o : option (list A)) (x : option A) : option (list A) := match o, x with Some l, Some a => Some (l ++ [a]) | _, _ => None end.
Lemma small_done t nt n c c1 id r s pts prefs l ids refs C : nas_type t nt n -> length c = n -> length c1 = n -> to_vtk_ordering nt c1 = Ok c ->
  fields C = nt :: str_of_nat id :: ref_text r :: map str_of_Z c1 -> state_ok s pts prefs l ids refs -> (refs = None <-> r = None) ->
  exists s', card_done C s = Ok s' /\ state_ok s' pts prefs (l ++ [(t, c)]) (ids ++ [Z.of_nat id]) (opt_snoc refs r).
Proof.
  intros T Lc Lc1 Ho Hf [S1 S2 S3 (S4a & S4b) S5 S6] Hr. unfold card_done. rewrite Hf. cbn [field nth_error of_option bind]. rewrite (nt_grid _ _ _ T).
  assert (D : dmem nt nastran_to_meshio_type = true) by (unfold dmem; now rewrite (nt_back _ _ _ T)). rewrite D.
  unfold py_int at 1. rewrite (strip_word _ (word_str_of_nat id)). assert (P : parse_Z (str_of_nat id) = Some (Z.of_nat id)) by (rewrite str_of_nat_Z; apply parse_Z_str_of_Z). rewrite P. cbn [of_option bind].
  assert (R : opt_int (ref_text r) = Ok r).
  { destruct r as [z|]; [|reflexivity]. cbn [ref_text]. assert (W := word_str_of_Z z). unfold opt_int, py_int. rewrite (strip_word _ W), parse_Z_str_of_Z. destruct (str_of_Z z); [discriminate|reflexivity]. }
  rewrite R. cbn [bind].
  set (fs := nt :: str_of_nat id :: ref_text r :: map str_of_Z c1).
  assert (N : (if smem nt bars then slice 3 5 fs else skipn 3 fs) = map str_of_Z c1).
  { destruct (smem nt bars) eqn:Eb; [|reflexivity]. apply (nt_bars _ _ _ T) in Eb. unfold slice. change (skipn 3 fs) with (map str_of_Z c1). apply firstn_all2. rewrite map_length. lia. }
  rewrite N.
  assert (Fil : filter (fun x => negb (String.eqb x "")) (map str_of_Z c1) = map str_of_Z c1).
  { clear. induction c1 as [|i c1 IH]; [reflexivity|]. cbn [map filter]. rewrite IH. assert (W := word_str_of_Z i). destruct (str_of_Z i); [discriminate|reflexivity]. }
  rewrite Fil. unfold add_cell. rewrite (nt_back _ _ _ T). cbn [of_option bind].
  assert (M : mapM py_int (map str_of_Z c1) = Ok c1).
  { apply mapM_Forall2. clear. induction c1 as [|i c1 IH]; constructor; auto. unfold py_int. now rewrite (strip_word _ (word_str_of_Z i)), parse_Z_str_of_Z. }
  rewrite M. cbn [bind]. rewrite (nt_nodes _ _ _ T). cbn [of_option bind]. rewrite Lc1, Nat.ltb_irrefl. cbn [bind fst snd]. rewrite Ho. cbn [bind]. rewrite S3.
  fold (same_as_last (regroup l) t).
  assert (W : Forall (fun tc => length (snd tc) = width_of (fst tc)) (l ++ [(t, c)])).
  { apply Forall_app. split; [exact S6|]. constructor; [|constructor]. cbn [fst snd]. unfold width_of. now rewrite (nt_nodes _ _ _ T). }
  assert (G := snoc_regroup width_of l t c W).
  destruct (snoc_data (regroup l) t c (ns_ids s) (Z.of_nat id) S4a) as (ids' & I1 & I2 & I3). rewrite I1. cbn [bind].
  assert (Q : exists cr, (match r with Some r0 => if same_as_last (regroup l) t then extend_last r0 (ns_crefs s) else Ok (ns_crefs s ++ [[r0]]) | None => Ok (ns_crefs s) end) = Ok cr /\
              match opt_snoc refs r with Some r' => data_ok (l ++ [(t, c)]) cr r' | None => cr = [] end).
  { destruct refs as [rs|], r as [z|]; cbn [opt_snoc]; try (exfalso; destruct Hr as [Ha Hb]; first [discriminate (Ha eq_refl)|discriminate (Hb eq_refl)]).
    - destruct S5 as (S5a & S5b). destruct (snoc_data (regroup l) t c (ns_crefs s) z S5a) as (cr & C1 & C2 & C3). exists cr. split; [exact C1|]. split; [now rewrite <- G|]. now rewrite C3, S5b.
    - exists (ns_crefs s). auto. }
  destruct Q as (cr & Q1 & Q2). rewrite Q1. cbn [bind]. eexists. split; [reflexivity|]. constructor; cbn [ns_points ns_prefs ns_cells ns_ids ns_crefs]; auto.
  split; [now rewrite <- G|]. now rewrite I3, S4b.
Qed.
Definition up1 (c : cell) : cell := map (fun i => i + 1)%Z c.
Definition fits (id : nat) (k : nat) (n : nat) : Prop := (Z.of_nat (id + k) <= 10 ^ 8)%Z /\ (k = 0 \/ n <= 6 \/ (Z.of_nat (id + k) <= 16 ^ 6)%Z).
Definition small_node (i : Z) : Prop := (0 <= i < 10 ^ 8 - 1)%Z.
Lemma small_card t nt n c id r : nas_type t nt n -> length c = n -> fits id 1 n -> Forall small_node c -> (forall z, r = Some z -> int_fits 8 z) ->
  exists ls rows c1, cell_lines Small nt id (ref_text r) c = Ok ls /\ card_in ls rows /\ fields (card_rows rows) = nt :: str_of_nat id :: ref_text r :: map str_of_Z c1 /\
    length c1 = n /\ to_vtk_ordering nt c1 = Ok (up1 c).
Proof.
  intros T Lc (F1 & F2) Hn Hr.
  destruct (orders nt (up1 c)) as (c1 & O1 & O2 & O3 & O4); [unfold up1; rewrite map_length, Lc; apply T|]. unfold up1 in O2. rewrite map_length in O2.
  assert (Pt : plain_text nt) by (right; apply T). assert (Pr : plain_text (ref_text r)) by (destruct r as [z|]; [right; apply word_str_of_Z|left; reflexivity]).
  assert (Tr : text_ok 8 (ref_text r)).
  { split; [exact Pr|]. destruct r as [z|]; cbn [ref_text]; [|cbn; split; [lia|reflexivity]]. split; [apply str_of_Z_length; [lia|auto]|apply comma_int]. }
  destruct (cell_card Small nt id (ref_text r) c1) with (c := c) as (ls & L1 & L2); auto.
  - discriminate.
  - apply T.
  - repeat split; auto; [|apply T]. assert (X := nt_len _ _ _ T). lia.
  - cbn [format_width]. apply str_of_nat_length. rewrite Nat2Z.inj_add in F1. change (Z.of_nat 8) with 8%Z. change (Z.of_nat 1) with 1%Z in F1. lia.
  - cbn [first_of]. intros X. apply hex_of_Z_length. destruct F2 as [F2|[F2|F2]]; [lia|lia|]. rewrite Nat2Z.inj_add in F2. change (Z.of_nat 1) with 1%Z in F2. change (Z.of_nat 6) with 6%Z. lia.
  - apply Forall_forall. intros i Hi. apply O4 in Hi. unfold up1 in Hi. apply in_map_iff in Hi as (j & <- & Hj). rewrite Forall_forall in Hn. specialize (Hn j Hj). unfold small_node in Hn.
    cbn [format_width]. apply str_of_Z_length; [lia|]. unfold int_fits. change (Z.of_nat 8) with 8%Z. lia.
  - assert (X := nt_20 _ _ _ T). lia.
  - exists ls, (cell_rows Small nt id (ref_text r) c1), c1. split; [exact L1|]. split; [exact L2|]. split; [apply small_fields; auto; apply T|]. split; [lia|exact O3].
Qed.
Definition ref_at (refs : option (list Z)) (ic : nat) : option Z := match refs with Some l => nth_error l ic | None => None end.
Definition opt_app {A} (a b : option (list A)) : option (list A) := match a, b with Some x, Some y => Some (x ++ y) | _, _ => None end.
Lemma small_cells t nt n (brefs : option (list Z)) cs : nas_type t nt n -> Forall (fun c => length c = n /\ Forall small_node c) cs ->
  (forall l, brefs = Some l -> Forall (int_fits 8) l) ->
  forall ic id s pts prefs l ids refs, (forall br, brefs = Some br -> length br = ic + length cs) -> fits id (length cs) n -> state_ok s pts prefs l ids refs -> (refs = None <-> brefs = None) ->
  exists cards rowss s', write_cells Small nt brefs cs ic id = Ok (concat cards) /\ Forall2 card_in cards rowss /\ done_all (map card_rows rowss) s = Ok s' /\
    state_ok s' pts prefs (l ++ map (pair t) (map up1 cs)) (ids ++ map Z.of_nat (seq id (length cs))) (opt_app refs (option_map (skipn ic) brefs)).
Proof.
  intros T. induction cs as [|c cs IH]; intros Hc Hb ic id s pts prefs l ids refs Hl Hf Hs Hr.
  - exists [], [], s. split; [reflexivity|]. split; [constructor|]. split; [reflexivity|]. cbn [map seq length]. rewrite !app_nil_r. destruct brefs as [br|], refs as [rs|]; cbn [option_map opt_app]; auto.
    + rewrite skipn_all2 by (rewrite (Hl br eq_refl); cbn; lia). now rewrite app_nil_r.
    + destruct Hr as [_ Hr]. discriminate (Hr eq_refl).
  - inversion Hc as [|? ? (Hc1 & Hc2) Hc']; subst. cbn [length] in *. destruct Hf as (F1 & F2).
    assert (Er : exists r, ref_at brefs ic = r /\ (refs = None <-> r = None) /\ (forall z, r = Some z -> int_fits 8 z) /\
      match brefs with Some l0 => do r0 <- of_option IndexError (nth_error l0 ic); Ok (str_of_Z r0) | None => Ok "" end = Ok (ref_text r)).
    { destruct brefs as [br|]; cbn [ref_at].
      - destruct (nth_error br ic) as [z|] eqn:Ez; [|apply nth_error_None in Ez; specialize (Hl br eq_refl); lia]. exists (Some z). split; [reflexivity|]. split; [split|split; [|reflexivity]].
        + intros X. destruct Hr as [Hr _]. discriminate (Hr X).
        + discriminate.
        + intros z' [= <-]. specialize (Hb br eq_refl). rewrite Forall_forall in Hb. apply Hb. eapply nth_error_In; eauto.
      - exists None. split; [reflexivity|]. split; [split; [reflexivity|intros _; now apply Hr]|]. split; [discriminate|reflexivity]. }
    destruct Er as (r & E1 & E2 & E3 & E4). cbn [write_cells]. rewrite E4. cbn [bind].
    destruct (small_card t nt (length c) c id r T eq_refl) as (ls & rows & c1 & K1 & K2 & K3 & K4 & K5); auto.
    { split; [lia|]. destruct F2 as [F2|[F2|F2]]; [discriminate|auto|right; right; lia]. }
    rewrite K1. cbn [bind].
    destruct (small_done t nt (length c) (up1 c) c1 id r s pts prefs l ids refs (card_rows rows) T) as (s1 & D1 & D2); auto; [apply map_length|].
    assert (A1 : forall br, brefs = Some br -> length br = S ic + length cs) by (intros br Hbr; rewrite (Hl br Hbr); lia).
    assert (A2 : fits (S id) (length cs) (length c)) by (split; [lia|]; destruct F2 as [F2|[F2|F2]]; [discriminate|auto|right; right; lia]).
    assert (A3 : opt_snoc refs r = None <-> brefs = None).
    { destruct refs as [rs|], r as [z|]; cbn [opt_snoc].
      - split; [discriminate|]. intros X. apply Hr in X. discriminate.
      - destruct E2 as [_ E2]. discriminate (E2 eq_refl).
      - destruct E2 as [E2 _]. discriminate (E2 eq_refl).
      - exact Hr. }
    destruct (IH Hc' Hb (S ic) (S id) s1 pts prefs _ _ _ A1 A2 D2 A3) as (cards & rowss & s' & I1 & I2 & I3 & I4). clear IH.
    rewrite I1. cbn [bind]. exists (ls :: cards), (rows :: rowss), s'. split; [reflexivity|]. split; [constructor; auto|]. split; [cbn [map done_all]; rewrite D1; exact I3|].
    cbn [map seq]. rewrite <- !app_assoc in I4. cbn [app] in I4.
    replace (opt_app refs (option_map (skipn ic) brefs)) with (opt_app (opt_snoc refs r) (option_map (skipn (S ic)) brefs)); [exact I4|].
    destruct brefs as [br|], refs as [rs|]; cbn [opt_snoc opt_app option_map ref_at] in *; auto.
    + subst r. destruct (nth_error br ic) as [z|] eqn:Ez; [|exfalso; destruct E2 as [_ Eb]; discriminate (Eb eq_refl)]. cbn [opt_app]. rewrite <- app_assoc. do 2 f_equal. cbn [app].
      clear -Ez. revert br Ez. induction ic as [|ic IHi]; intros [|b br] Ez; try discriminate; cbn in Ez |- *; [congruence|]. apply (IHi br Ez).
    + now subst r.
Qed.

Definition refs_fit (crefs : option (list (list Z))) : Prop := forall l, crefs = Some l -> Forall (Forall (int_fits 8)) l.
Lemma skipn_cons {A} k (l : list A) x : nth_error l k = Some x -> skipn k l = x :: skipn (S k) l.
Proof. revert l; induction k as [|k IH]; intros [|a l] H; try discriminate; cbn in H |- *; [congruence|]. now apply IH. Qed.
Lemma small_blocks crefs bs : Forall (fun b => exists nt n, nas_type (btype b) nt n /\ Forall (fun c => length c = n /\ Forall small_node c) (bdata b)) bs -> refs_fit crefs ->
  forall k id s pts prefs l ids refs, (forall cl, crefs = Some cl -> k <= length cl /\ Forall2 (fun r b => length r = length (bdata b)) (skipn k cl) bs) ->
  (Z.of_nat (id + length (all_cells bs)) <= 10 ^ 8)%Z -> (Forall (fun tc => length (snd tc) <= 6) (all_cells bs) \/ (Z.of_nat (id + length (all_cells bs)) <= 16 ^ 6)%Z) ->
  state_ok s pts prefs l ids refs -> (refs = None <-> crefs = None) ->
  exists cards rowss s', write_blocks Small crefs bs k id = Ok (concat cards) /\ Forall2 card_in cards rowss /\ done_all (map card_rows rowss) s = Ok s' /\
    state_ok s' pts prefs (l ++ map (fun tc => (fst tc, up1 (snd tc))) (all_cells bs)) (ids ++ map Z.of_nat (seq id (length (all_cells bs))))
      (opt_app refs (option_map (fun cl => concat (skipn k cl)) crefs)).
Proof.
  intros Hb Hr. induction bs as [|b bs IH]; intros k id s pts prefs l ids refs Hk Hid Hx Hs Ho.
  - exists [], [], s. split; [reflexivity|]. split; [constructor|]. split; [reflexivity|]. cbn [all_cells flat_map map seq length]. rewrite !app_nil_r.
    destruct crefs as [cl|], refs as [rs|]; cbn [option_map opt_app]; auto.
    + destruct (Hk cl eq_refl) as (_ & F). inversion F as [E|]. cbn [concat]. now rewrite app_nil_r.
    + destruct Ho as [_ Ho]. discriminate (Ho eq_refl).
  - inversion Hb as [|? ? (nt & n & T & Hc) Hb']; subst. rewrite all_cells_cons, app_length, map_length in *.
    assert (Er : exists br, match crefs with Some cl => do r <- of_option IndexError (nth_error cl k); Ok (Some r) | None => Ok None end = Ok br /\
       (forall x, br = Some x -> length x = 0 + length (bdata b) /\ Forall (int_fits 8) x) /\ (refs = None <-> br = None) /\
       (forall cl, crefs = Some cl -> exists x, br = Some x /\ nth_error cl k = Some x /\ S k <= length cl /\ Forall2 (fun r b => length r = length (bdata b)) (skipn (S k) cl) bs)).
    { destruct crefs as [cl|].
      - destruct (Hk cl eq_refl) as (Hk1 & F). inversion F as [|r ? rest ? Hlen F' E1 E2]. destruct (nth_error cl k) as [x|] eqn:Ex.
        + rewrite (skipn_cons k cl x Ex) in E1. injection E1 as -> ->. exists (Some x). split; [reflexivity|]. split; [|split].
          * intros x' [= <-]. split; [exact Hlen|]. specialize (Hr cl eq_refl). rewrite Forall_forall in Hr. apply Hr. eapply nth_error_In; eauto.
          * split; [intros X; destruct Ho as [Ho _]; discriminate (Ho X)|discriminate].
          * intros cl' [= <-]. exists x. repeat split; auto. assert (Y := nth_error_lt _ _ _ Ex). lia.
        + apply nth_error_None in Ex. rewrite skipn_all2 in E1 by lia. discriminate.
      - exists None. split; [reflexivity|]. split; [discriminate|]. split; [split; [reflexivity|intros _; now apply Ho]|discriminate]. }
    destruct Er as (br & E1 & E2 & E3 & E4). cbn [write_blocks]. rewrite (nt_get _ _ _ T). cbn [of_option bind]. rewrite E1. cbn [bind].
    destruct (small_cells (btype b) nt n br (bdata b) T Hc) with (ic := 0) (id := id) (s := s) (pts := pts) (prefs := prefs) (l := l) (ids := ids) (refs := refs)
      as (cards1 & rowss1 & s1 & C1 & C2 & C3 & C4); auto.
    { intros x Hx'. now apply E2. } { intros x Hx'. now apply E2. }
    { split; [lia|]. destruct Hx as [Hx|Hx]; [|right; right; lia]. destruct (bdata b) as [|c cs]; [left; reflexivity|right; left].
      cbn [map app] in Hx. inversion Hx as [|? ? Hx1 _]; subst. cbn [snd] in Hx1. inversion Hc as [|? ? (Hc1 & _) _]; subst. exact Hx1. }
    rewrite C1. cbn [bind].
    assert (A1 : forall cl, crefs = Some cl -> S k <= length cl /\ Forall2 (fun r b => length r = length (bdata b)) (skipn (S k) cl) bs).
    { intros cl Hcl. destruct (E4 cl Hcl) as (x & _ & _ & X). exact X. }
    assert (A2 : (Z.of_nat (id + length (bdata b) + length (all_cells bs)) <= 10 ^ 8)%Z) by lia.
    assert (A3 : Forall (fun tc => length (snd tc) <= 6) (all_cells bs) \/ (Z.of_nat (id + length (bdata b) + length (all_cells bs)) <= 16 ^ 6)%Z).
    { destruct Hx as [Hx|Hx]; [left; now apply Forall_app in Hx|right; lia]. }
    assert (A4 : opt_app refs (option_map (skipn 0) br) = None <-> crefs = None).
    { destruct refs as [rs|], br as [x|]; cbn [opt_app option_map].
      - split; [discriminate|]. intros X. apply Ho in X. discriminate.
      - destruct E3 as [_ E3]. discriminate (E3 eq_refl).
      - destruct E3 as [E3 _]. discriminate (E3 eq_refl).
      - exact Ho. }
    destruct (IH Hb' (S k) (id + length (bdata b)) s1 pts prefs _ _ _ A1 A2 A3 C4 A4) as (cards & rowss & s' & I1 & I2 & I3 & I4). clear IH.
    rewrite I1. cbn [bind]. exists (cards1 ++ cards), (rowss1 ++ rowss), s'. split; [now rewrite concat_app|]. split; [now apply Forall2_app|]. split; [rewrite map_app, done_app, C3; exact I3|].
    rewrite <- !app_assoc in I4. rewrite !map_app, seq_app, map_app. rewrite map_map in I4. rewrite map_map. cbn [fst snd]. 
    replace (opt_app refs (option_map (fun cl => concat (skipn k cl)) crefs)) with (opt_app (opt_app refs (option_map (skipn 0) br)) (option_map (fun cl => concat (skipn (S k) cl)) crefs)); [exact I4|].
    destruct crefs as [cl|], refs as [rs|]; cbn [option_map opt_app]; auto.
    + destruct (E4 cl eq_refl) as (x & -> & X & _). cbn [option_map opt_app skipn]. rewrite (skipn_cons k cl x X). cbn [concat]. now rewrite <- app_assoc.
    + destruct br; reflexivity.
Qed.

(** ** Cells of the format fixed-large: nothing is read *)
Lemma large_done t nt n C s : nas_type t nt n -> (exists l, fields C = (nt ++ "*")%string :: l) -> card_done C s = Ok (s : @nas_state fl).
Proof.
  intros T (l & E). unfold card_done. rewrite E. cbn [field nth_error of_option bind]. now rewrite (nt_sgrid _ _ _ T), (nt_sdict _ _ _ T).
Qed.
Lemma large_card t nt n c id ref : nas_type t nt n -> length c = n -> (Z.of_nat id < 10 ^ 16)%Z -> (n <= 2 \/ (Z.of_nat id < 16 ^ 6)%Z) -> Forall small_node c -> text_ok 16 ref ->
  exists ls rows, cell_lines Large (nt ++ "*") id ref c = Ok ls /\ card_in ls rows /\ forall s : @nas_state fl, card_done (card_rows rows) s = Ok s.
Proof.
  intros T Lc F1 F2 Hn Hr.
  destruct (cell_card Large (nt ++ "*") id ref (up1 c)) with (c := c) as (ls & L1 & L2); auto.
  - discriminate.
  - apply heads_app. apply T.
  - split; [right; apply T|]. split; [|apply T]. rewrite length_app. assert (X := nt_len _ _ _ T). cbn. lia.
  - cbn [format_width]. apply str_of_nat_length. exact F1.
  - cbn [first_of]. intros X. apply hex_of_Z_length. unfold up1 in X. rewrite map_length in X. destruct F2 as [F2|F2]; [lia|]. change (Z.of_nat 6) with 6%Z. lia.
  - apply Forall_forall. intros i Hi. unfold up1 in Hi. apply in_map_iff in Hi as (j & <- & Hj). rewrite Forall_forall in Hn. specialize (Hn j Hj). unfold small_node in Hn.
    cbn [format_width]. apply str_of_Z_length; [lia|]. unfold int_fits. change (Z.of_nat 16) with 16%Z. lia.
  - unfold up1. rewrite map_length. assert (X := nt_20 _ _ _ T). lia.
  - apply T.
  - exists ls, (cell_rows Large (nt ++ "*") id ref (up1 c)). split; [exact L1|]. split; [exact L2|]. intros s. apply (large_done t nt n); auto.
    destruct (cell_rows_first Large (nt ++ "*")%string id ref (up1 c)) as (r & rs & ->).
    destruct (fields_head (pad_right 8 (nt ++ "*")%string) r rs) as (l & ->); [unfold pad_right; repeat apply heads_app; apply T|].
    rewrite strip_pad_right by (right; apply T). eauto.
Qed.

Lemma ref_ok r : (forall z, r = Some z -> int_fits 8 z) -> text_ok 16 (ref_text r).
Proof.
  intros H. destruct r as [z|]; cbn [ref_text]; [|split; [left; reflexivity|cbn; split; [lia|reflexivity]]]. split; [right; apply word_str_of_Z|]. split; [|apply comma_int].
  specialize (H z eq_refl). assert (X : String.length (str_of_Z z) <= 8) by (apply str_of_Z_length; [lia|auto]). lia.
Qed.
Lemma large_cells t nt n (brefs : option (list Z)) cs : nas_type t nt n -> Forall (fun c => length c = n /\ Forall small_node c) cs ->
  (forall l, brefs = Some l -> Forall (int_fits 8) l) ->
  forall ic id, (forall br, brefs = Some br -> length br = ic + length cs) -> (Z.of_nat (id + length cs) <= 16 ^ 6)%Z ->
  exists cards rowss, write_cells Large (nt ++ "*") brefs cs ic id = Ok (concat cards) /\ Forall2 card_in cards rowss /\ forall s : @nas_state fl, done_all (map card_rows rowss) s = Ok s.
Proof.
  intros T. induction cs as [|c cs IH]; intros Hc Hb ic id Hl Hf; [exists [], []; repeat split; constructor|].
  inversion Hc as [|? ? (Hc1 & Hc2) Hc']; subst. cbn [length] in *.
  assert (Er : exists r, (forall z, r = Some z -> int_fits 8 z) /\
      match brefs with Some l0 => do r0 <- of_option IndexError (nth_error l0 ic); Ok (str_of_Z r0) | None => Ok "" end = Ok (ref_text r)).
  { destruct brefs as [br|]; [|exists None; split; [discriminate|reflexivity]].
    destruct (nth_error br ic) as [z|] eqn:Ez; [|apply nth_error_None in Ez; specialize (Hl br eq_refl); lia]. exists (Some z). split; [|reflexivity].
    intros z' [= <-]. specialize (Hb br eq_refl). rewrite Forall_forall in Hb. apply Hb. eapply nth_error_In; eauto. }
  destruct Er as (r & E1 & E2). cbn [write_cells]. rewrite E2. cbn [bind].
  destruct (large_card t nt (length c) c id (ref_text r) T eq_refl) as (ls & rows & K1 & K2 & K3); auto using ref_ok; [lia|right; lia|]. rewrite K1. cbn [bind].
  destruct (IH Hc' Hb (S ic) (S id)) as (cards & rowss & I1 & I2 & I3); [intros br Hbr; rewrite (Hl br Hbr); lia|lia|]. rewrite I1. cbn [bind].
  exists (ls :: cards), (rows :: rowss). split; [reflexivity|]. split; [constructor; auto|]. intros s. cbn [map done_all]. rewrite K3. cbn [bind]. apply I3.
Qed.
Lemma large_blocks crefs bs : Forall (fun b => exists nt n, nas_type (btype b) nt n /\ Forall (fun c => length c = n /\ Forall small_node c) (bdata b)) bs -> refs_fit crefs ->
  forall k id, (forall cl, crefs = Some cl -> k <= length cl /\ Forall2 (fun r b => length r = length (bdata b)) (skipn k cl) bs) -> (Z.of_nat (id + length (all_cells bs)) <= 16 ^ 6)%Z ->
  exists cards rowss, write_blocks Large crefs bs k id = Ok (concat cards) /\ Forall2 card_in cards rowss /\ forall s : @nas_state fl, done_all (map card_rows rowss) s = Ok s.
Proof.
  intros Hb Hr. induction bs as [|b bs IH]; intros k id Hk Hid; [exists [], []; repeat split; constructor|].
  inversion Hb as [|? ? (nt & n & T & Hc) Hb']; subst. rewrite all_cells_cons, app_length, map_length in *.
  assert (Er : exists br, match crefs with Some cl => do r <- of_option IndexError (nth_error cl k); Ok (Some r) | None => Ok None end = Ok br /\
       (forall x, br = Some x -> length x = 0 + length (bdata b) /\ Forall (int_fits 8) x) /\
       (forall cl, crefs = Some cl -> S k <= length cl /\ Forall2 (fun r b => length r = length (bdata b)) (skipn (S k) cl) bs)).
  { destruct crefs as [cl|].
    - destruct (Hk cl eq_refl) as (Hk1 & F). inversion F as [|r ? rest ? Hlen F' E1 E2]. destruct (nth_error cl k) as [x|] eqn:Ex.
      + rewrite (skipn_cons k cl x Ex) in E1. injection E1 as -> ->. exists (Some x). split; [reflexivity|]. split.
        * intros x' [= <-]. split; [exact Hlen|]. specialize (Hr cl eq_refl). rewrite Forall_forall in Hr. apply Hr. eapply nth_error_In; eauto.
        * intros cl' [= <-]. split; auto. assert (Y := nth_error_lt _ _ _ Ex). lia.
      + apply nth_error_None in Ex. rewrite skipn_all2 in E1 by lia. discriminate.
    - exists None. split; [reflexivity|]. split; discriminate. }
  destruct Er as (br & E1 & E2 & E3). cbn [write_blocks]. rewrite (nt_get _ _ _ T). cbn [of_option bind]. rewrite E1. cbn [bind].
  destruct (large_cells (btype b) nt n br (bdata b) T Hc) with (ic := 0) (id := id) as (cards1 & rowss1 & C1 & C2 & C3).
  { intros x Hx'. now apply E2. } { intros x Hx'. now apply E2. } { lia. }
  rewrite C1. cbn [bind]. destruct (IH Hb' (S k) (id + length (bdata b))) as (cards & rowss & I1 & I2 & I3); auto; [lia|]. rewrite I1. cbn [bind].
  exists (cards1 ++ cards), (rowss1 ++ rowss). split; [now rewrite concat_app|]. split; [now apply Forall2_app|]. intros s. rewrite map_app, done_app, C3. apply I3.
Qed.

(** ** Points *)
Lemma float_of f v : float_fits ffix f v -> exists t, float_text ffix f v = Ok t /\ word t = true /\ char_in "," t = false /\ fparse t = Some v /\ (f = Free \/ String.length t <= format_width f).
Proof.
  intros H. destruct f; cbn [float_fits float_text] in *.
  - destruct H as (L & W & C & P). apply Nat.leb_le in L. rewrite L. eauto 8.
  - destruct H as (W & C & P). eexists. split; [reflexivity|]. repeat split; auto. right. cbn [format_width].
    clear. generalize (rstrip_char "0" (ffix v)). intros s. assert (X : forall n s, String.length (substring 0 n s) <= n). { induction n as [|n IH]; intros [|a s']; cbn; try lia. specialize (IH s'). lia. } apply X.
  - destruct H as (L & W & C & P). assert (L' := L). apply Nat.leb_le in L. rewrite L. eauto 8.
Qed.
Lemma point_card f k prefs p : (Z.of_nat (S k) < 10 ^ 8)%Z -> length p = 3 -> Forall (float_fits ffix f) p ->
  (forall l, prefs = Some l -> k < length l /\ Forall (int_fits (format_width f)) l) ->
  exists ls rows, point_lines ffix f prefs (k, p) = Ok ls /\ card_in ls rows /\
    forall s, card_done (card_rows rows) s = Ok (NasState (ns_points s ++ [(Z.of_nat (S k), p)]) (ns_prefs s ++ match ref_at prefs k with Some r => [r] | None => [] end) (ns_cells s) (ns_ids s) (ns_crefs s)).
Proof.
  intros Hk Hl Hp Hr. destruct p as [|a [|b [|c [|]]]]; try discriminate. inversion Hp as [|? ? Ha Hp']; subst. inversion Hp' as [|? ? Hb Hp'']; subst. inversion Hp'' as [|? ? Hc _]; subst.
  apply float_of in Ha, Hb, Hc. destruct Ha as (x & X1 & X2 & X3 & X4 & X5), Hb as (y & Y1 & Y2 & Y3 & Y4 & Y5), Hc as (z & Z1 & Z2 & Z3 & Z4 & Z5).
  assert (Er : match prefs with Some l => do r <- of_option IndexError (nth_error l k); Ok (str_of_Z r) | None => Ok "" end = Ok (ref_text (ref_at prefs k)) /\
     text_ok (format_width f) (ref_text (ref_at prefs k)) /\ (ref_text (ref_at prefs k) = "" \/ exists r, ref_text (ref_at prefs k) = str_of_Z r) /\ parse_Z (ref_text (ref_at prefs k)) = ref_at prefs k).
  { destruct prefs as [l|]; cbn [ref_at].
    - destruct (Hr l eq_refl) as (L & F). destruct (nth_error l k) as [r|] eqn:E; [|apply nth_error_None in E; lia]. split; [reflexivity|]. cbn [ref_text]. split; [|split].
      + split; [right; apply word_str_of_Z|]. split; [|apply comma_int]. apply str_of_Z_length; [destruct f; cbn; lia|]. rewrite Forall_forall in F. apply F. eapply nth_error_In; eauto.
      + right. eauto.
      + apply parse_Z_str_of_Z.
    - split; [reflexivity|]. cbn [ref_text]. repeat split; auto. left; reflexivity. cbn. lia. }
  destruct Er as (E1 & E2 & E3 & E4).
  exists (grid_lines f (S k) (ref_text (ref_at prefs k)) x y z), (grid_rows f (S k) (ref_text (ref_at prefs k)) x y z).
  destruct (grid_ok f (S k) (ref_text (ref_at prefs k)) x y z) as (G1 & G2).
  - etransitivity; [apply (str_of_nat_length _ 7); exact Hk|destruct f; cbn; lia].
  - exact E2.
  - destruct X5 as [->|X5]; [left; reflexivity|]. destruct Y5 as [->|Y5]; [left; reflexivity|]. destruct Z5 as [->|Z5]; [left; reflexivity|]. right. repeat (apply Forall_cons; [assumption|]). constructor.
  - repeat (apply Forall_cons; [split; [right|]; assumption|]). constructor.
  - split; [|split; [exact G1|]].
    + unfold point_lines. cbn [fst snd mapM]. rewrite X1, Y1, Z1. cbn [bind]. rewrite E1. reflexivity.
    + intros s. rewrite (point_done f (S k) (ref_text (ref_at prefs k)) [a; b; c] x y z s _ G2 E3); [now rewrite E4|]. repeat (constructor; [auto|]). constructor.
Qed.
Lemma point_cards f prefs ps : Forall (fun p => length p = 3 /\ Forall (float_fits ffix f) p) ps -> forall k,
  (Z.of_nat (k + length ps) < 10 ^ 8)%Z -> (forall l, prefs = Some l -> length l = k + length ps /\ Forall (int_fits (format_width f)) l) ->
  exists cards rowss, mapM (point_lines ffix f prefs) (combine (seq k (length ps)) ps) = Ok cards /\ Forall2 card_in cards rowss /\
   forall s, done_all (map card_rows rowss) s = Ok (NasState (ns_points s ++ combine (map Z.of_nat (seq (S k) (length ps))) ps) (ns_prefs s ++ match prefs with Some l => skipn k l | None => [] end) (ns_cells s) (ns_ids s) (ns_crefs s)).
Proof.
  induction 1 as [|p ps (Hp1 & Hp2) _ IH]; intros k Hk Hr.
  - exists [], []. split; [reflexivity|]. split; [constructor|]. intros [a b c d e]. cbn. rewrite !app_nil_r. destruct prefs as [l|]; [|now rewrite app_nil_r].
    rewrite skipn_all2, app_nil_r; [reflexivity|]. destruct (Hr l eq_refl). cbn in *. lia.
  - cbn [length] in *. destruct (point_card f k prefs p) as (ls & rows & P1 & P2 & P3); auto; [lia| |].
    { intros l Hl. destruct (Hr l Hl). split; auto. lia. }
    destruct (IH (S k)) as (cards & rowss & I1 & I2 & I3); [lia| |]. { intros l Hl. destruct (Hr l Hl). split; auto. lia. }
    exists (ls :: cards), (rows :: rowss). cbn [seq combine mapM]. rewrite P1. cbn [bind]. rewrite I1. cbn [bind]. split; [reflexivity|]. split; [constructor; auto|].
    intros s. cbn [map done_all]. rewrite P3. cbn [bind]. rewrite I3. cbn [ns_points ns_prefs ns_cells ns_ids ns_crefs]. cbn [map seq combine]. rewrite <- !app_assoc. cbn [app]. do 2 f_equal.
    f_equal. destruct prefs as [l|]; cbn [ref_at]; [|reflexivity]. destruct (Hr l eq_refl) as (Hl & _). destruct (nth_error l k) as [r|] eqn:E; [|apply nth_error_None in E; lia].
    now rewrite (skipn_cons k l r E).
Qed.
Lemma combine_snoc {A B} (a : list A) (b : list B) x y : length a = length b -> combine (a ++ [x]) (b ++ [y]) = combine a b ++ [(x, y)].
Proof. revert b; induction a as [|u a IH]; intros [|v b] H; try discriminate; [reflexivity|]. cbn. now rewrite IH by (cbn in H; lia). Qed.
Lemma number_get n k : k < n -> zget (Z.of_nat (S k)) (number_table (map Z.of_nat (seq 1 n))) = Some (Z.of_nat k).
Proof.
  intros H. induction n as [|n IH]; [lia|]. unfold number_table in *. rewrite seq_S, map_app. cbn [map]. unfold enumerate in *. rewrite app_length, map_length, seq_length in *. cbn [length].
  rewrite Nat.add_comm. cbn [Nat.add]. rewrite seq_S. rewrite combine_snoc by now rewrite map_length, !seq_length. rewrite fold_left_app. cbn [combine fold_left fst snd Nat.add]. rewrite zget_zset.
  destruct (Z.eqb_spec (Z.of_nat (S k)) (Z.of_nat (S n))) as [E|E]; [f_equal; lia|]. apply IH. lia.
Qed.

(** ** Whole files *)
Definition small_mesh_ok (m : nas_mesh fl) : Prop := Forall (fun b => exists nt n, nas_type (btype b) nt n /\ Forall (fun c => length c = n /\ Forall small_node c) (bdata b)) (nm_cells m).
Lemma blocks_fit f m : nas_ok ffix f m -> numbers_fit m -> small_mesh_ok m.
Proof.
  intros H (N & _). assert (C := no_cells _ _ _ H). unfold small_mesh_ok. eapply Forall_impl; [|exact C]. intros b (_ & K & F). destruct (nas_type_of _ K) as (nt & n & T). exists nt, n. split; [exact T|].
  eapply Forall_impl; [|exact F]. cbn beta. intros c (L & I). rewrite (nt_nodes _ _ _ T) in L. injection L as L. split; [now symmetry|].
  eapply Forall_impl; [|exact I]. cbn beta. intros i Hi. unfold small_node. lia.
Qed.
Lemma points_fit f m : nas_ok ffix f m -> Forall (fun p => length p = 3 /\ Forall (float_fits ffix f) p) (points_3d m) /\ length (points_3d m) = length (nm_points m).
Proof.
  intros H. destruct (no_floats _ _ _ H) as (F & Z). assert (P := no_points _ _ _ H). unfold points_3d. destruct (Nat.eqb_spec (nm_dim m) 2) as [E|E].
  - rewrite map_length. split; [|reflexivity]. apply Forall_map. rewrite Forall_forall in *. intros p Hp. rewrite app_length. cbn [length]. rewrite (P p Hp), E. split; [reflexivity|]. apply Forall_app. split; [auto|repeat constructor; auto].
  - split; [|reflexivity]. destruct (no_dim _ _ _ H) as [D|D]; [contradiction|]. rewrite Forall_forall in *. intros p Hp. rewrite (P p Hp), D. auto.
Qed.
Lemma same_lengths_ok {A} n (l : list (list A)) : Forall (fun x => length x = n) l -> same_lengths l = true.
Proof. intros H. destruct H as [|x l Hx Hl]; [reflexivity|]. cbn [same_lengths]. apply forallb_forall. intros y Hy. rewrite Forall_forall in Hl. rewrite (Hl y Hy), Hx. apply Nat.eqb_refl. Qed.
Lemma header version rest : find_bulk (("$ Nastran file written by meshio v" ++ version)%string :: "BEGIN BULK" :: rest) = Ok rest.
Proof.
  cbn [find_bulk]. assert (E : startswith (strip ("$ Nastran file written by meshio v" ++ version)) "BEGIN BULK" = false).
  { unfold strip. assert (X : forall s, lstrip (String "$" s) = String "$" s) by reflexivity. cbn [append]. rewrite X.
    destruct (startswith _ _) eqn:E; [|reflexivity]. apply rstrip_prefix in E. discriminate. }
  rewrite E. reflexivity.
Qed.

Lemma read_body version cards rowss fuel s : Forall2 card_in cards rowss -> 1 <= fuel -> done_all (map card_rows rowss) (@nas_start fl) = Ok s ->
  read_nastran fuel (("$ Nastran file written by meshio v" ++ version)%string :: "BEGIN BULK" :: concat cards ++ ["ENDDATA"]) =
  (if negb (same_lengths (map snd (ns_points s))) then Err ValueError else
   if negb (forallb (fun b => same_lengths (bdata b)) (ns_cells s)) then Err ValueError else
   do bs <- make_blocks (map (fun b => (btype b, bdata b)) (ns_cells s));
   let ids := map fst (ns_points s) in
   do cells <- mapM (renumber (number_table ids)) bs;
   Ok (NasRead (map snd (ns_points s)) cells (match ns_prefs s with [] => None | l => Some l end)
        (match ns_crefs s with [] => None | l => Some l end) ids (ns_ids s))).
Proof.
  intros H Hf D. destruct fuel as [|fuel]; [lia|]. unfold read_nastran. rewrite header. cbn [bind]. assert (B := body_read cards rowss fuel H). rewrite D in B.
  destruct (skip_lines (S fuel) (concat cards ++ ["ENDDATA"])) as [ll|e]; [|discriminate]. cbn [bind] in B |- *. rewrite B. reflexivity.
Qed.
Lemma points_read f m : nas_ok ffix f m -> numbers_fit m ->
  exists cards rowss, mapM (point_lines ffix f (nm_prefs m)) (enumerate (points_3d m)) = Ok cards /\ Forall2 card_in cards rowss /\
   done_all (map card_rows rowss) (@nas_start fl) = Ok (NasState (combine (numbers (length (nm_points m))) (points_3d m)) (match nm_prefs m with Some l => l | None => [] end) [] [] []).
Proof.
  intros H (N & _). destruct (points_fit f m H) as (P & L). destruct (point_cards f (nm_prefs m) (points_3d m) P 0) as (cards & rowss & C1 & C2 & C3).
  - rewrite L. exact N.
  - intros l Hl. rewrite L. exact (no_prefs _ _ _ H l Hl).
  - exists cards, rowss. split; [exact C1|]. split; [exact C2|]. rewrite C3. cbn [nas_start ns_points ns_prefs ns_cells ns_ids ns_crefs app]. unfold numbers. rewrite L. destruct (nm_prefs m); reflexivity.
Qed.
Lemma crefs_start f m : nas_ok ffix f m -> forall cl, nm_crefs m = Some cl -> 0 <= length cl /\ Forall2 (fun r b => length r = length (bdata b)) (skipn 0 cl) (nm_cells m).
Proof. intros H cl Hc. split; [lia|]. exact (no_crefs _ _ _ H cl Hc). Qed.
Lemma grouped_in (P : string * cell -> Prop) l b c : Forall P l -> In b (regroup l) -> In c (bdata b) -> P (btype b, c).
Proof.
  intros H Hb Hc. rewrite Forall_forall in H. apply H. rewrite <- (regroup_cells l). unfold all_cells. apply in_flat_map. exists b. split; [exact Hb|]. apply in_map_iff. eauto.
Qed.
Theorem small_roundtrip version f m fuel : nas_ok ffix f m -> numbers_fit m -> 1 <= fuel ->
  exists file, write_nastran ffix version f Small m = Ok file /\ read_nastran fuel file = Ok (read_back m).
Proof.
  intros H N Hf. destruct (points_read f m H N) as (pc & pr & P1 & P2 & P3).
  assert (B := blocks_fit f m H N). destruct N as (N1 & N2 & N3 & N4). destruct (points_fit f m H) as (PF & PL).
  destruct (small_blocks (nm_crefs m) (nm_cells m) B N4 0 1 (NasState (combine (numbers (length (nm_points m))) (points_3d m)) (match nm_prefs m with Some l => l | None => [] end) [] [] [])
     (combine (numbers (length (nm_points m))) (points_3d m)) (match nm_prefs m with Some l => l | None => [] end) [] [] (match nm_crefs m with Some _ => Some [] | None => None end))
    as (cc & cr & s' & C1 & C2 & C3 & C4).
  - exact (crefs_start f m H).
  - unfold number_of_cells in N2. lia.
  - unfold number_of_cells in N3. destruct N3 as [N3|N3]; [left; exact N3|right; lia].
  - constructor; cbn [ns_points ns_prefs ns_cells ns_ids ns_crefs]; auto; [split; reflexivity|]. destruct (nm_crefs m); [split; reflexivity|reflexivity].
  - destruct (nm_crefs m); split; intros; congruence.
  - exists (("$ Nastran file written by meshio v" ++ version)%string :: "BEGIN BULK" :: concat (pc ++ cc) ++ ["ENDDATA"]). split.
    { unfold write_nastran. fold (points_3d m). rewrite P1. cbn [bind]. rewrite C1. cbn [bind]. rewrite concat_app, <- app_assoc. reflexivity. }
    rewrite (read_body version (pc ++ cc) (pr ++ cr) fuel s'); [|now apply Forall2_app|exact Hf|rewrite map_app, done_app, P3; exact C3].
    destruct C4 as [S1 S2 S3 (S4 & S5) S6 S7]. rewrite S1, S2, S3. cbn [app] in *.
    assert (Ln : length (numbers (length (nm_points m))) = length (points_3d m)) by (unfold numbers; now rewrite map_length, seq_length, PL).
    rewrite (map_snd_combine _ _ Ln), (map_fst_combine _ _ Ln).
    rewrite (same_lengths_ok 3) by (eapply Forall_impl; [|exact PF]; intros p (X & _); exact X). cbn [negb].
    set (L := all_cells (nm_cells m)) in *. assert (Lu : forall c : cell, length (up1 c) = length c) by (intros c; apply map_length).
    rewrite (regroup_map up1 L Lu) in *.
    assert (W : forall b c, In b (regroup L) -> In c (bdata b) -> dget (btype b) num_nodes_per_cell = Some (length c) /\ known_type (btype b) /\ 1 <= length c /\ Forall (fun i => 0 <= i < Z.of_nat (length (nm_points m)))%Z c).
    { intros b c Hb Hc. pattern (btype b), c. set (Q := fun (t : string) (c0 : cell) => _). change ((fun tc => Q (fst tc) (snd tc)) (btype b, c)). apply (grouped_in _ L); auto. unfold Q, L.
      apply Forall_forall. intros [t c'] Hin. unfold all_cells in Hin. apply in_flat_map in Hin as (b' & Hb' & Hin). apply in_map_iff in Hin as (c'' & [= <- <-] & Hc''). cbn [fst snd].
      assert (NC := no_cells _ _ _ H). rewrite Forall_forall in NC. destruct (NC b' Hb') as (K1 & K2 & K3). rewrite Forall_forall in K3. destruct (K3 c'' Hc'') as (K4 & K5).
      split; [exact K4|]. split; [exact K1|]. split; [|exact K5]. destruct (nas_type_of _ K2) as (nt & n & T). rewrite (nt_nodes _ _ _ T) in K4. injection K4 as <-. apply T. }
    assert (NE : forall b, In b (regroup L) -> exists c, In c (bdata b)).
    { intros b Hb. assert (G := grouped_nonempty _ (regroup_grouped L)). rewrite Forall_forall in G. specialize (G b Hb). destruct (bdata b) as [|c cs]; [contradiction|]. exists c. now left. }
    assert (SL : forallb (fun b => same_lengths (bdata b)) (map (fun b => Block (btype b) (map up1 (bdata b))) (regroup L)) = true).
    { apply forallb_forall. intros b Hb. apply in_map_iff in Hb as (b0 & <- & Hb). cbn [bdata]. apply (same_lengths_ok (width_of (btype b0))). apply Forall_map, Forall_forall. intros c Hc.
      rewrite Lu. unfold width_of. destruct (W b0 c Hb Hc) as (E & _). now rewrite E. }
    rewrite SL. cbn [negb].
    assert (MB : make_blocks (map (fun b => (btype b, bdata b)) (map (fun b => Block (btype b) (map up1 (bdata b))) (regroup L))) = Ok (map (fun b => Block (btype b) (map up1 (bdata b))) (regroup L))).
    { apply make_blocks_ok. split.
      - intros t d Hin. apply in_map_iff in Hin as (b & [= <- <-] & Hb). apply in_map_iff in Hb as (b0 & <- & Hb). cbn [btype]. destruct (NE b0 Hb) as (c & Hc). now destruct (W b0 c Hb Hc) as (_ & X & _).
      - rewrite !map_map. reflexivity. }
    rewrite MB. cbn [bind].
    assert (MR : mapM (renumber (number_table (numbers (length (nm_points m))))) (map (fun b => Block (btype b) (map up1 (bdata b))) (regroup L)) = Ok (regroup L)).
    { apply mapM_Forall2. assert (G : Forall (fun b => forall c, In c (bdata b) -> 1 <= length c /\ Forall (fun i => 0 <= i < Z.of_nat (length (nm_points m)))%Z c) (regroup L) /\ Forall (fun b => exists c, In c (bdata b)) (regroup L)).
      { split; apply Forall_forall; intros b Hb; [intros c Hc; now destruct (W b c Hb Hc) as (_ & _ & X)|auto]. }
      destruct G as (G1 & G2). clear -G1 G2. revert G2. induction G1 as [|b bs G1 _ IH]; intros G2; [constructor|]. inversion G2 as [|? ? (c & Hc) G2']; subst. cbn [map]. constructor; [|auto].
      unfold renumber. cbn [bdata btype]. assert (NEc : concat (map up1 (bdata b)) <> []).
      { intros X. assert (Y : forall l : list cell, concat l = [] -> forall x, In x l -> x = []).
        { induction l as [|y l IHl]; intros E x [].
          - subst. cbn in E. now apply app_eq_nil in E as [? _].
          - cbn in E. apply app_eq_nil in E as [_ E]. auto. }
        specialize (Y _ X (up1 c) (in_map up1 _ _ Hc)). destruct (G1 c Hc) as (Z & _). destruct c; [cbn in Z; lia|discriminate]. }
      destruct (concat (map up1 (bdata b))); [contradiction|].
      assert (E : mapM (mapM (fun i => of_option KeyError (zget i (number_table (numbers (length (nm_points m))))))) (map up1 (bdata b)) = Ok (bdata b)).
      { apply mapM_Forall2. assert (G3 : Forall (fun c => Forall (fun i => 0 <= i < Z.of_nat (length (nm_points m)))%Z c) (bdata b)) by (apply Forall_forall; intros x Hx; now apply G1).
        clear -G3. induction G3 as [|c cs Hc _ IH]; constructor; auto. apply mapM_Forall2. clear -Hc. induction Hc as [|i c Hi _ IH]; [constructor|]. cbn [up1 map]. constructor; [|exact IH].
        replace (i + 1)%Z with (Z.of_nat (S (Z.to_nat i))) by lia. unfold numbers. rewrite number_get by lia. cbn [of_option]. f_equal. lia. }
      rewrite E. cbn [bind]. now destruct b. }
    rewrite MR. cbn [bind]. unfold read_back. fold L. f_equal. 
    assert (BL : map blen (map (fun b => Block (btype b) (map up1 (bdata b))) (regroup L)) = map blen (regroup L)).
    { rewrite map_map. apply map_ext. intros b. unfold blen. cbn [bdata]. apply map_length. }
    assert (BL2 : map blen (regroup (map (fun tc => (fst tc, up1 (snd tc))) L)) = map blen (regroup L)) by (rewrite (regroup_map up1 L Lu); exact BL).
    f_equal.
    + destruct (nm_prefs m) as [[|]|]; reflexivity.
    + destruct (nm_crefs m) as [cl|]; cbn [opt_app option_map] in S6.
      * destruct S6 as (Sa & Sb). rewrite BL2 in Sa. cbn [app skipn] in Sb. assert (X : ns_crefs s' = data_for (regroup L) (concat cl)) by (unfold data_for; rewrite <- Sa, <- Sb; symmetry; apply split_lens_concat).
        rewrite X. unfold nonempty. destruct (data_for (regroup L) (concat cl)); reflexivity.
      * rewrite S6. reflexivity.
    + rewrite BL in S4. unfold data_for, numbers, number_of_cells. fold L. rewrite <- S4, <- S5. symmetry. apply split_lens_concat.
Qed.
(** The format fixed-large: no cell is read. *)
Theorem large_lost version f m fuel : nas_ok ffix f m -> numbers_fit m -> (Z.of_nat (number_of_cells (nm_cells m)) < 16 ^ 6)%Z -> 1 <= fuel ->
  exists file, write_nastran ffix version f Large m = Ok file /\
    read_nastran fuel file = Ok (NasRead (points_3d m) [] (nonempty (nm_prefs m)) None (numbers (length (nm_points m))) []).
Proof.
  intros H N Hc Hf. destruct (points_read f m H N) as (pc & pr & P1 & P2 & P3).
  assert (B := blocks_fit f m H N). destruct N as (N1 & N2 & N3 & N4). destruct (points_fit f m H) as (PF & PL).
  destruct (large_blocks (nm_crefs m) (nm_cells m) B N4 0 1) as (cc & cr & C1 & C2 & C3).
  - exact (crefs_start f m H).
  - unfold number_of_cells in Hc. lia.
  - exists (("$ Nastran file written by meshio v" ++ version)%string :: "BEGIN BULK" :: concat (pc ++ cc) ++ ["ENDDATA"]). split.
    { unfold write_nastran. fold (points_3d m). rewrite P1. cbn [bind]. rewrite C1. cbn [bind]. rewrite concat_app, <- app_assoc. reflexivity. }
    rewrite (read_body version (pc ++ cc) (pr ++ cr) fuel (NasState (combine (numbers (length (nm_points m))) (points_3d m)) (match nm_prefs m with Some l => l | None => [] end) [] [] [])); [|now apply Forall2_app|exact Hf|rewrite map_app, done_app, P3; apply C3].
    cbn [ns_points ns_prefs ns_cells ns_ids ns_crefs map forallb negb].
    assert (Ln : length (numbers (length (nm_points m))) = length (points_3d m)) by (unfold numbers; now rewrite map_length, seq_length, PL).
    rewrite (map_snd_combine _ _ Ln), (map_fst_combine _ _ Ln).
    rewrite (same_lengths_ok 3) by (eapply Forall_impl; [|exact PF]; intros p (X & _); exact X). cbn [negb make_blocks mapM bind]. do 2 f_equal. destruct (nm_prefs m) as [[|]|]; reflexivity.
Qed.

(** ** Incomplete files *)
Lemma no_end_cards ls : Forall (fun l => startswith l "ENDDATA" = false) ls -> forall C (s : @nas_state fl), exists e, read_cards C s ls = Err e.
Proof.
  induction 1 as [|l ls Hl _ IH]; intros C s; [eexists; reflexivity|]. cbn [read_cards]. destruct (skipped l); [apply IH|]. destruct (continued C l) as [[C'|]|e]; cbn [bind]; [apply IH| |eauto].
  destruct (card_done C s) as [s1|e]; cbn [bind]; [|eauto]. rewrite Hl. apply IH.
Qed.
Lemma no_end_skip fuel ls l rest : Forall (fun l => startswith l "ENDDATA" = false) ls -> skip_lines fuel ls = Ok (l, rest) ->
  startswith l "ENDDATA" = false /\ Forall (fun l => startswith l "ENDDATA" = false) rest.
Proof.
  revert ls; induction fuel as [|fuel IH]; intros ls H E; [discriminate|]. cbn [skip_lines] in E. destruct H as [|x ls Hx H]; [apply (IH []); auto|].
  destruct (skipped x); [now apply (IH ls)|]. injection E as <- <-. auto.
Qed.
Lemma no_end fuel ls : Forall (fun l => startswith l "ENDDATA" = false) ls -> exists e, @read_nastran fl fuel ls = Err e.
Proof.
  intros H. unfold read_nastran. destruct (find_bulk ls) as [ls1|e] eqn:E1; [|eexists; reflexivity]. cbn [bind].
  assert (H1 : Forall (fun l => startswith l "ENDDATA" = false) ls1).
  { clear -H E1. induction H as [|x ls Hx H IH]; [discriminate|]. cbn [find_bulk] in E1. destruct (startswith (strip x) "BEGIN BULK"); [now injection E1 as <-|auto]. }
  destruct (skip_lines fuel ls1) as [[l rest]|e] eqn:E2; [|eexists; reflexivity]. cbn [bind fst snd]. destruct (no_end_skip _ _ _ _ H1 E2) as (H2 & H3). rewrite H2.
  destruct (no_end_cards rest H3 ([], row_of l) nas_start) as (e & ->). eexists; reflexivity.
Qed.
Lemma card_lines_no_end cards rowss : Forall2 card_in cards rowss -> Forall (fun l => startswith l "ENDDATA" = false) (concat cards).
Proof.
  induction 1 as [|ls rows cards rowss C _ IH]; [constructor|]. cbn [concat]. apply Forall_app. split; [|exact IH]. destruct C as [(l & ls' & -> & (a & Ha & _ & _ & NE) & Hc) _ _ _]. constructor; [now apply (starts_head a)|].
  eapply Forall_impl; [|exact Hc]. intros x [H|H]; [apply (starts_head "+")|apply (starts_head "*")]; auto; discriminate.
Qed.
Definition tail_free (file : list string) : Prop := exists body, file = body ++ ["ENDDATA"] /\ Forall (fun l => startswith l "ENDDATA" = false) body.
Lemma written_tail version f cf m : cf = Small \/ cf = Large -> nas_ok ffix f m -> numbers_fit m -> (cf = Large -> (Z.of_nat (number_of_cells (nm_cells m)) < 16 ^ 6)%Z) ->
  exists file, write_nastran ffix version f cf m = Ok file /\ tail_free file /\ firstn 2 file = [("$ Nastran file written by meshio v" ++ version)%string; "BEGIN BULK"].
Proof.
  intros Hcf H N HL. destruct (points_read f m H N) as (pc & pr & P1 & P2 & P3).
  assert (B := blocks_fit f m H N). destruct N as (N1 & N2 & N3 & N4). destruct (points_fit f m H) as (PF & PL).
  assert (C : exists cc cr, write_blocks cf (nm_crefs m) (nm_cells m) 0 1 = Ok (concat cc) /\ Forall2 card_in cc cr).
  { destruct Hcf as [-> | ->].
    - destruct (small_blocks (nm_crefs m) (nm_cells m) B N4 0 1 (NasState (combine (numbers (length (nm_points m))) (points_3d m)) (match nm_prefs m with Some l => l | None => [] end) [] [] [])
        (combine (numbers (length (nm_points m))) (points_3d m)) (match nm_prefs m with Some l => l | None => [] end) [] [] (match nm_crefs m with Some _ => Some [] | None => None end))
        as (cc & cr & s' & C1 & C2 & C3 & C4); [..|eauto].
      + exact (crefs_start f m H).
      + unfold number_of_cells in N2. lia.
      + unfold number_of_cells in N3. destruct N3 as [N3|N3]; [left; exact N3|right; lia].
      + constructor; cbn [ns_points ns_prefs ns_cells ns_ids ns_crefs]; auto; [split; reflexivity|]. destruct (nm_crefs m); [split; reflexivity|reflexivity].
      + destruct (nm_crefs m); split; intros; congruence.
    - destruct (large_blocks (nm_crefs m) (nm_cells m) B N4 0 1) as (cc & cr & C1 & C2 & C3); [exact (crefs_start f m H)| |eauto].
      specialize (HL eq_refl). unfold number_of_cells in HL. lia. }
  destruct C as (cc & cr & C1 & C2).
  exists ((("$ Nastran file written by meshio v" ++ version)%string :: "BEGIN BULK" :: concat (pc ++ cc)) ++ ["ENDDATA"]). split; [|split].
  - unfold write_nastran. fold (points_3d m). rewrite P1. cbn [bind]. rewrite C1. cbn [bind app]. rewrite concat_app, <- app_assoc. reflexivity.
  - eexists. split; [reflexivity|]. constructor; [reflexivity|]. constructor; [reflexivity|]. apply (card_lines_no_end _ (pr ++ cr)). now apply Forall2_app.
  - reflexivity.
Qed.
Lemma tail_cut file j : tail_free file -> j < length file -> Forall (fun l => startswith l "ENDDATA" = false) (firstn j file).
Proof.
  intros (body & -> & H) Hj. rewrite app_length in Hj. cbn [length] in Hj. rewrite firstn_app. replace (j - length body) with 0 by lia. cbn [firstn]. rewrite app_nil_r.
  rewrite Forall_forall in *. intros x Hx. apply H. now apply firstn_In in Hx.
Qed.
Lemma skip_forever fuel : skip_lines fuel [] = Err OutOfFuel.
Proof. induction fuel; [reflexivity|exact IHfuel]. Qed.
End Nastran.
