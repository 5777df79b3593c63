(** Proofs about Model/Su2.v. *)
From Verif.Lib Require Import Base Facts Facts2 Text TextFacts Lines LinesFacts BytesFacts.
From Verif.Model Require Import Core Su2.
From Verif.Spec Require Import Core Volume.
From Verif.Proofs Require Import Core Gmsh Gmsh22 Off Ply Tetgen Vtu VtuPoly Ugrid.
From Coq Require Import ZifyBool ZifyNat.

(** ** Codes *)
Lemma su2_cell_facts tc : su2_cell tc ->
  su2_numnodes (su2_code (fst tc)) = Some (length (snd tc)) /\ su2_name (su2_code (fst tc)) = Some (fst tc) /\
  dget (fst tc) meshio_to_su2 = Some (su2_code (fst tc)).
Proof.
  destruct tc as [t c]. intros [code H]. cbn [fst snd] in *. cbn in H.
  repeat (destruct H as [H|H]; [injection H as <- <- E; rewrite <- E; repeat split; reflexivity|]). destruct H.
Qed.
Lemma su2_code_inj tc1 tc2 : su2_cell tc1 -> su2_cell tc2 -> su2_code (fst tc1) = su2_code (fst tc2) -> fst tc1 = fst tc2.
Proof.
  intros H1 H2 E. apply su2_cell_facts in H1, H2. destruct H1 as (_ & N1 & _), H2 as (_ & N2 & _). rewrite E, N2 in N1. congruence.
Qed.

(** ** Translating the data *)
Definition ext (extra : bool) (k : nat) : list Z := if extra then [Z.of_nat k] else [].
Definition enc_cell (extra : bool) (kc : nat * (string * cell)) : list Z :=
  su2_code (fst (snd kc)) :: snd (snd kc) ++ ext extra (fst kc).
Definition width_of (extra : bool) (kc : nat * (string * cell)) : nat := length (snd (snd kc)) + (if extra then 2 else 1).
Lemma enc_length extra kc : length (enc_cell extra kc) = width_of extra kc.
Proof. unfold enc_cell, width_of, ext. destruct extra; cbn [length]; rewrite app_length; cbn [length]; lia. Qed.

Lemma scan_ok extra L fuel : Forall (fun kc => su2_cell (snd kc)) L -> length (flat_map (enc_cell extra) L) <= fuel ->
  su2_scan fuel (flat_map (enc_cell extra) L) (if extra then 2 else 1) = Ok (map (fun kc => su2_code (fst (snd kc))) L).
Proof.
  revert fuel. induction L as [|kc L IH]; intros fuel H Hf; [now destruct fuel|].
  inversion H as [|? ? Hc H']; subst. cbn [flat_map map] in *.
  pose proof (enc_length extra kc) as Le. rewrite app_length, Le in Hf.
  assert (Hw : 0 < width_of extra kc) by (unfold width_of; destruct extra; lia).
  destruct fuel as [|fuel]; [lia|].
  assert (E : flat_map (enc_cell extra) (kc :: L) = su2_code (fst (snd kc)) :: (snd (snd kc) ++ ext extra (fst kc)) ++ flat_map (enc_cell extra) L) by reflexivity.
  cbn [flat_map] in E. cbn [su2_scan]. rewrite E. destruct (su2_cell_facts _ Hc) as (-> & _). cbn [of_option bind]. rewrite <- E.
  rewrite skipn_exact by (rewrite Le; reflexivity). rewrite IH by (auto; lia). reflexivity.
Qed.
Lemma offsets_ok extra L pre post :
  Forall2 (fun kc off => su2_row (pre ++ flat_map (enc_cell extra) L ++ post) (length (snd (snd kc))) off = Ok (snd (snd kc)))
    L (su2_offsets (length pre) (map (width_of extra) L)).
Proof.
  revert pre. induction L as [|kc L IH]; intros pre; cbn [map su2_offsets flat_map]; constructor.
  - unfold su2_row. rewrite !app_length, enc_length. replace (Nat.leb _ _) with true by (unfold width_of; destruct extra; lia).
    f_equal. replace (length pre + 1) with (length (pre ++ [su2_code (fst (snd kc))])) by (rewrite app_length; reflexivity).
    unfold enc_cell at 1. cbn [app].
    replace (pre ++ su2_code (fst (snd kc)) :: ((snd (snd kc) ++ ext extra (fst kc)) ++ flat_map (enc_cell extra) L) ++ post)
      with ((pre ++ [su2_code (fst (snd kc))]) ++ snd (snd kc) ++ (ext extra (fst kc) ++ flat_map (enc_cell extra) L ++ post))
      by (rewrite <- !app_assoc; reflexivity).
    rewrite skipn_exact by auto. now rewrite firstn_exact.
  - specialize (IH (pre ++ enc_cell extra kc)). rewrite app_length, enc_length, <- app_assoc in IH. rewrite <- app_assoc. exact IH.
Qed.

Lemma filter_rows data (L : list (nat * (string * cell))) offs u n :
  Forall2 (fun kc off => su2_row data (length (snd (snd kc))) off = Ok (snd (snd kc))) L offs ->
  Forall (fun kc => su2_code (fst (snd kc)) = u -> length (snd (snd kc)) = n) L ->
  mapM (fun to => su2_row data n (snd to)) (filter (fun to => Z.eqb (fst to) u) (combine (map (fun kc => su2_code (fst (snd kc))) L) offs)) =
  Ok (map (fun kc => snd (snd kc)) (filter (fun kc => Z.eqb (su2_code (fst (snd kc))) u) L)).
Proof.
  intros H Hn. revert Hn. induction H as [|kc off L offs Hr H IH]; intros Hn; [reflexivity|].
  inversion Hn as [|? ? Hk Hn']; subst. cbn [map combine filter fst]. destruct (Z.eqb_spec (su2_code (fst (snd kc))) u) as [E|E].
  - cbn [mapM snd map]. rewrite <- (Hk E), Hr. cbn [bind]. rewrite (Hk E), IH by auto. reflexivity.
  - now apply IH.
Qed.

Definition type_of_code (u : Z) : string := match su2_name u with Some t => t | None => "" end.
Lemma translate_ok extra L : Forall (fun kc => su2_cell (snd kc)) L ->
  su2_translate (flat_map (enc_cell extra) L) extra =
  Ok (map (fun u => Block (type_of_code u) (map (fun kc => snd (snd kc)) (filter (fun kc => Z.eqb (su2_code (fst (snd kc))) u) L)))
        (zunique (map (fun kc => su2_code (fst (snd kc))) L))).
Proof.
  intros H. unfold su2_translate. rewrite scan_ok by auto. cbn [bind].
  assert (E : mapM (fun c => of_option KeyError (su2_numnodes c)) (map (fun kc => su2_code (fst (snd kc))) L) =
              Ok (map (fun kc => length (snd (snd kc))) L)).
  { clear - H. induction H as [|kc L Hc H IH]; [reflexivity|]. cbn [map mapM]. destruct (su2_cell_facts _ Hc) as (-> & _).
    cbn [of_option bind]. now rewrite IH. }
  rewrite E. cbn [bind]. rewrite map_map.
  change (map (fun x => length (snd (snd x)) + (if extra then 2 else 1)) L) with (map (width_of extra) L).
  pose proof (offsets_ok extra L [] []) as Ho. cbn [app length] in Ho. rewrite app_nil_r in Ho.
  apply mapM_ok_in. intros u Hu. apply (proj1 (zunique_In _ _)) in Hu. apply in_map_iff in Hu. destruct Hu as (kc & <- & Hin).
  assert (Hc : su2_cell (snd kc)) by (rewrite Forall_forall in H; now apply H).
  destruct (su2_cell_facts _ Hc) as (Hn & Ht & _). unfold su2_block, type_of_code. rewrite Hn, Ht. cbn [of_option bind].
  rewrite (filter_rows _ L); auto.
  rewrite Forall_forall in H |- *. intros kc' Hin' E'. destruct (su2_cell_facts _ (H _ Hin')) as (Hn' & _). rewrite E', Hn in Hn'. congruence.
Qed.

(** ** Cells with tags *)
Definition tagged (t : string) (l : list (block * list Z)) : list (cell * Z) :=
  flat_map (fun bt => if String.eqb (btype (fst bt)) t then combine (bdata (fst bt)) (snd bt) else []) l.
Lemma tagged_app t l1 l2 : tagged t (l1 ++ l2) = tagged t l1 ++ tagged t l2.
Proof. apply flat_map_app. Qed.
Definition with_tag (z : Z) (b : block) : block * list Z := (b, repeat z (blen b)).

Lemma combine_repeat {A B} (l : list A) (z : B) : combine l (repeat z (length l)) = map (fun x => (x, z)) l.
Proof. induction l; cbn; congruence. Qed.

Lemma translate_tagged t z (cells : list (string * cell)) (L : list (nat * (string * cell))) us :
  Forall su2_cell cells -> map snd L = cells -> NoDup us -> (forall tc, In tc cells -> In (su2_code (fst tc)) us) ->
  tagged t (map (with_tag z) (map (fun u => Block (type_of_code u) (map (fun kc => snd (snd kc)) (filter (fun kc => Z.eqb (su2_code (fst (snd kc))) u) L))) us)) =
  tagged_type t (map (fun tc => (tc, z)) cells).
Proof.
  intros Hc HL N Hin. subst cells.
  assert (E : forall u, In u us ->
    (if String.eqb (type_of_code u) t then combine (map (fun kc => snd (snd kc)) (filter (fun kc : nat * (string * cell) => Z.eqb (su2_code (fst (snd kc))) u) L))
          (repeat z (length (map (fun kc => snd (snd kc)) (filter (fun kc : nat * (string * cell) => Z.eqb (su2_code (fst (snd kc))) u) L)))) else []) =
    map (fun kc => (snd (snd kc), z)) (filter (fun kc => Z.eqb (su2_code (fst (snd kc))) u && String.eqb (fst (snd kc)) t) L)).
  { intros u _. assert (G : forall kc, In kc L -> su2_code (fst (snd kc)) = u -> type_of_code u = fst (snd kc)).
    { intros kc Hk <-. unfold type_of_code. rewrite Forall_forall in Hc. destruct (su2_cell_facts (snd kc)) as (_ & -> & _); [|reflexivity].
      apply Hc. now apply in_map. }
    clear - G. destruct (String.eqb_spec (type_of_code u) t) as [Et|Et].
    - rewrite combine_repeat, map_map. f_equal. apply filter_ext_in. intros kc Hk.
      destruct (Z.eqb_spec (su2_code (fst (snd kc))) u) as [Eu|]; [|reflexivity]. rewrite <- (G kc Hk Eu), Et, String.eqb_refl. reflexivity.
    - rewrite filter_false; [reflexivity|]. intros kc Hk. destruct (Z.eqb_spec (su2_code (fst (snd kc))) u) as [Eu|]; [|reflexivity].
      rewrite <- (G kc Hk Eu). cbn. now apply String.eqb_neq. }
  unfold tagged. rewrite map_map, flat_map_concat_map, map_map. cbn [with_tag fst snd btype bdata]. unfold blen. cbn [bdata].
  rewrite (map_ext_in _ _ us E). clear E.
  unfold tagged_type. 
  assert (G : forall L' : list (nat * (string * cell)), (forall kc, In kc L' -> su2_cell (snd kc) /\ In (su2_code (fst (snd kc))) us) ->
     concat (map (fun u => map (fun kc => (snd (snd kc), z)) (filter (fun kc => Z.eqb (su2_code (fst (snd kc))) u && String.eqb (fst (snd kc)) t) L')) us) =
     map (fun x => (snd (fst x), snd x)) (filter (fun x => String.eqb (fst (fst x)) t) (map (fun tc => (tc, z)) (map snd L')))).
  { intros L' HL'.
    rewrite filter_map_swap, map_map. rewrite filter_map_swap, map_map. cbn [fst snd].
    (* all cells of type t have one code *)
    assert (One : (forall kc, In kc L' -> fst (snd kc) <> t) \/ exists u, In u us /\ forall kc, In kc L' -> fst (snd kc) = t -> su2_code (fst (snd kc)) = u).
    { destruct (existsb (fun kc => String.eqb (fst (snd kc)) t) L') eqn:Ex.
      - right. apply existsb_exists in Ex. destruct Ex as (kc & Hk & Et). apply String.eqb_eq in Et. exists (su2_code (fst (snd kc))).
        split; [now apply HL'|]. intros kc' Hk' Et'. now rewrite Et, Et'.
      - left. intros kc Hk Et. apply (proj2 (Bool.not_true_iff_false _) Ex). apply existsb_exists. exists kc. split; [exact Hk|]. now apply String.eqb_eq. }
    destruct One as [Hno|(u0 & Hu0 & Hall)].
    - rewrite (filter_false (fun kc => String.eqb (fst (snd kc)) t)) by (intros kc Hk; apply String.eqb_neq; now apply Hno).
      cbn. clear - Hno. induction us as [|u us IH]; [reflexivity|]. cbn [map concat]. rewrite IH, app_nil_r.
      rewrite filter_false; [reflexivity|]. intros kc Hk. apply andb_false_iff. right. apply String.eqb_neq. now apply Hno.
    - clear HL' Hin. induction us as [|u us IH]; [destruct Hu0|]. inversion N as [|? ? Hn N']; subst. cbn [map concat].
      destruct (Z.eq_dec u u0) as [->|Hne].
      + replace (concat _) with (@nil (cell * Z)).
        2:{ symmetry. clear - Hall Hn. induction us as [|v us IH]; [reflexivity|]. cbn [map concat]. rewrite IH by (intros X; apply Hn; now right). rewrite app_nil_r.
            rewrite filter_false; [reflexivity|]. intros kc Hk. destruct (String.eqb_spec (fst (snd kc)) t) as [Et|]; [|apply andb_false_r].
            rewrite (Hall kc Hk Et). destruct (Z.eqb_spec u0 v); [|reflexivity]. exfalso. apply Hn. left. congruence. }
        rewrite app_nil_r. f_equal. apply filter_ext_in. intros kc Hk. destruct (String.eqb_spec (fst (snd kc)) t) as [Et|]; [|apply andb_false_r].
        now rewrite (Hall kc Hk Et), Z.eqb_refl.
      + rewrite filter_false; [apply IH; auto; now destruct Hu0|]. intros kc Hk.
        destruct (String.eqb_spec (fst (snd kc)) t) as [Et|]; [|apply andb_false_r]. rewrite (Hall kc Hk Et).
        destruct (Z.eqb_spec u0 u); [congruence|reflexivity]. }
  apply G. intros kc Hk. rewrite Forall_forall in Hc. split; [apply Hc|apply Hin]; now apply in_map.
Qed.

(** ** Merging *)
Definition aligned (bt : block * list Z) : Prop := length (snd bt) = blen (fst bt).
Lemma combine_app {A B} (a1 a2 : list A) (b1 b2 : list B) : length a1 = length b1 ->
  combine (a1 ++ a2) (b1 ++ b2) = combine a1 b1 ++ combine a2 b2.
Proof. revert b1. induction a1 as [|x a1 IH]; intros [|y b1] H; try discriminate; [reflexivity|]. cbn. f_equal. apply IH. now injection H. Qed.
Lemma merge_tagged t t' l : Forall aligned l -> tagged t (su2_merge t' l) = tagged t l.
Proof.
  induction 1 as [|bt l Ha H IH]; [reflexivity|]. cbn [su2_merge]. destruct (String.eqb_spec (btype (fst bt)) t') as [E|E].
  2:{ unfold tagged in *. cbn [flat_map]. now rewrite IH. }
  cbn [filter]. rewrite (proj2 (String.eqb_eq _ _) E). cbn [map concat tagged flat_map fst snd btype bdata].
  fold (tagged t (filter (fun x => negb (String.eqb (btype (fst x)) t')) l)). fold (tagged t l). rewrite E.
  destruct (String.eqb_spec t' t) as [<-|Et].
  - rewrite combine_app by (unfold aligned, blen in Ha; lia). rewrite <- app_assoc. f_equal.
    clear - H. induction H as [|b l Hb H IH]; [reflexivity|]. cbn [filter]. destruct (String.eqb_spec (btype (fst b)) t') as [Eb|Eb].
    + cbn [map concat negb]. rewrite combine_app by (unfold aligned, blen in Hb; lia). rewrite <- app_assoc, IH.
      unfold tagged. cbn [flat_map]. rewrite (proj2 (String.eqb_eq _ _) Eb). reflexivity.
    + cbn [negb]. assert (Z0 : tagged t' (b :: l) = tagged t' l) by (unfold tagged; cbn [flat_map]; now rewrite (proj2 (String.eqb_neq _ _) Eb)).
      rewrite Z0. unfold tagged at 1. cbn [flat_map]. rewrite (proj2 (String.eqb_neq _ _) Eb). exact IH.
  - cbn [app]. clear - Et. induction l as [|b l IH]; [reflexivity|]. cbn [filter]. unfold tagged in *. cbn [flat_map].
    destruct (String.eqb_spec (btype (fst b)) t') as [Eb|Eb].
    + cbn [negb]. rewrite IH, Eb, (proj2 (String.eqb_neq _ _) Et). reflexivity.
    + cbn [negb flat_map]. now rewrite IH.
Qed.
Lemma concat_lengths {A B C} (f : A -> list B) (g : A -> list C) l : Forall (fun x => length (f x) = length (g x)) l ->
  length (concat (map f l)) = length (concat (map g l)).
Proof. induction 1; cbn; [reflexivity|]. rewrite !app_length. lia. Qed.
Lemma Forall_filter {A} (P : A -> Prop) f (l : list A) : Forall P l -> Forall P (filter f l).
Proof. intros H. rewrite Forall_forall in *. intros x Hx. apply filter_In in Hx. now apply H. Qed.
Lemma merge_aligned t l : Forall aligned l -> Forall aligned (su2_merge t l).
Proof.
  induction 1 as [|bt l Ha H IH]; [constructor|]. cbn [su2_merge]. destruct (String.eqb (btype (fst bt)) t) eqn:E.
  - constructor; [|now apply Forall_filter]. unfold aligned, blen. cbn [fst snd bdata]. apply concat_lengths.
    apply Forall_filter. constructor; [exact Ha|exact H].
  - constructor; auto.
Qed.
Definition btypes (l : list (block * list Z)) : list string := map (fun bt => btype (fst bt)) l.
Lemma merge_types t l : btypes (su2_merge t l) = (fix keep (l : list string) := match l with [] => [] | x :: l' =>
  if String.eqb x t then x :: filter (fun y => negb (String.eqb y t)) l' else x :: keep l' end) (btypes l).
Proof.
  induction l as [|bt l IH]; [reflexivity|]. cbn [su2_merge btypes map]. destruct (String.eqb_spec (btype (fst bt)) t) as [E|E].
  - cbn [map fst btype]. rewrite E. f_equal. unfold btypes. clear. induction l as [|b l IH]; [reflexivity|]. cbn [filter map].
    destruct (String.eqb (btype (fst b)) t); cbn [negb map]; [exact IH|now rewrite IH].
  - cbn [map]. f_equal. exact IH.
Qed.
(** Number of blocks of a type *)
Lemma merge_count t t' l : length (filter (String.eqb t') (btypes (su2_merge t l))) =
  if String.eqb t t' then Nat.min 1 (length (filter (String.eqb t') (btypes l))) else length (filter (String.eqb t') (btypes l)).
Proof.
  rewrite merge_types. induction (btypes l) as [|x xs IH]; [now destruct (String.eqb t t')|].
  destruct (String.eqb_spec x t) as [E|E].
  - subst x. cbn [filter]. rewrite (String.eqb_sym t' t). destruct (String.eqb_spec t t') as [Et|Et].
    + subst t'. cbn [length]. replace (length (filter (String.eqb t) (filter _ xs))) with 0; [reflexivity|].
      symmetry. apply length_zero_iff_nil. apply filter_false. intros y Hy. apply filter_In in Hy. destruct Hy as [_ Hy].
      rewrite String.eqb_sym. now destruct (String.eqb y t).
    + f_equal. clear - Et. induction xs as [|y xs IH]; [reflexivity|]. cbn [filter]. destruct (String.eqb_spec y t) as [Ey|Ey]; cbn [negb filter].
      * subst y. rewrite (String.eqb_sym t' t), (proj2 (String.eqb_neq _ _) Et). exact IH.
      * destruct (String.eqb t' y); [now rewrite IH|exact IH].
  - cbn [filter]. destruct (String.eqb_spec t' x) as [Ex|Ex].
    + subst x. cbn [length]. rewrite IH. rewrite (proj2 (String.eqb_neq t t')) by congruence. reflexivity.
    + exact IH.
Qed.
Lemma NoDup_count l : (forall t, length (filter (String.eqb t) l) <= 1) -> NoDup l.
Proof.
  induction l as [|x l IH]; intros H; [constructor|]. constructor.
  - intros Hin. specialize (H x). cbn [filter] in H. rewrite String.eqb_refl in H. cbn [length] in H.
    assert (In x (filter (String.eqb x) l)) by (apply filter_In; split; [exact Hin|apply String.eqb_refl]).
    destruct (filter (String.eqb x) l); [destruct H0|cbn in H; lia].
  - apply IH. intros t. specialize (H t). cbn [filter] in H. destruct (String.eqb t x); cbn [length] in H; lia.
Qed.

(** ** Lines *)
Lemma key_line key z : char_in "=" key = false -> word (key ++ "=")%string = true ->
  let line := (key ++ "= " ++ str_of_Z z)%string in
  strip line = line /\ split_char "=" line = [key; (" " ++ str_of_Z z)%string].
Proof.
  intros Hk Hw line. assert (E : line = row_line [(key ++ "=")%string; str_of_Z z]).
  { unfold line, row_line, join. cbn [String.concat]. rewrite str_app_assoc. reflexivity. }
  split.
  - rewrite E. apply strip_row. cbn [forallb]. now rewrite Hw, word_str_of_Z.
  - unfold line. change ("= " ++ str_of_Z z)%string with (String "=" (" " ++ str_of_Z z)). rewrite split_char_app by auto.
    rewrite split_char_single; [reflexivity|]. cbn [append char_in]. rewrite char_in_str_of_Z; [reflexivity|reflexivity|discriminate].
Qed.
Lemma int_rest z : int_line (" " ++ str_of_Z z) = Ok z.
Proof.
  unfold int_line. assert (E : strip (" " ++ str_of_Z z) = strip (str_of_Z z)) by reflexivity. rewrite E.
  rewrite strip_word by apply word_str_of_Z. now rewrite parse_Z_str_of_Z.
Qed.

Lemma rows_tokens extra cells :
  su2_rows extra cells = map row_line (map (fun kc => map str_of_Z (enc_cell extra kc)) (enumerate cells)).
Proof. unfold su2_rows. rewrite map_map. reflexivity. Qed.
Lemma rows_length extra cells : length (su2_rows extra cells) = length cells.
Proof. unfold su2_rows. now rewrite map_length, enumerate_length. Qed.

Definition sec_blocks (tag : Z) (cells : list (string * cell)) : list (block * list Z) :=
  map (with_tag tag) (map (fun u => Block (type_of_code u) (map (fun kc => snd (snd kc))
     (filter (fun kc => Z.eqb (su2_code (fst (snd kc))) u) (enumerate cells))))
        (zunique (map (fun kc => su2_code (fst (snd kc))) (enumerate cells)))).

Lemma enum_cells cells : Forall su2_cell cells -> Forall (fun kc => su2_cell (snd kc)) (enumerate cells).
Proof. intros H. apply (proj1 (Forall_map snd su2_cell (enumerate cells))). rewrite enumerate_snd. exact H. Qed.

Lemma elems_ok extra tag cells rest : Forall su2_cell cells -> cells <> [] ->
  su2_elems (" " ++ str_of_nat (length cells)) tag (su2_rows extra cells ++ rest) = Ok (sec_blocks tag cells, rest).
Proof.
  intros H Hne. unfold su2_elems. rewrite str_of_nat_Z, int_rest. cbn [bind]. replace (_ <? 0)%Z with false by lia.
  rewrite Nat2Z.id, firstn_exact, skipn_exact by (now rewrite rows_length).
  rewrite rows_tokens.
  destruct cells as [|tc cells]; [congruence|]. set (cs := tc :: cells) in *.
  assert (E0 : exists kcs, enumerate cs = (0, tc) :: kcs) by (unfold cs, enumerate; cbn [length seq combine]; eauto).
  destruct E0 as [kcs E0].
  assert (Hm : match map row_line (map (fun kc => map str_of_Z (enc_cell extra kc)) (enumerate cs)) with
               | [] => False | f :: _ => f = row_line (map str_of_Z (enc_cell extra (0, tc))) end) by (rewrite E0; reflexivity).
  destruct (map row_line (map (fun kc => map str_of_Z (enc_cell extra kc)) (enumerate cs))) as [|f fs] eqn:Ef; [destruct Hm|].
  subst f. rewrite <- Ef.
  assert (Ed : flat_map split_ws (map row_line (map (fun kc => map str_of_Z (enc_cell extra kc)) (enumerate cs))) =
               map str_of_Z (flat_map (enc_cell extra) (enumerate cs))).
  { clear. induction (enumerate cs) as [|kc l IH]; [reflexivity|]. cbn [map flat_map]. rewrite map_app, IH. f_equal.
    apply split_ws_join, words_ints. }
  rewrite Ed.
  assert (Et : split_ws (row_line (map str_of_Z (enc_cell extra (0, tc)))) = map str_of_Z (enc_cell extra (0, tc))).
  { apply split_ws_join, words_ints. }
  rewrite Et. cbn [enc_cell map fst snd]. rewrite parse_Z_str_of_Z. cbn [of_option bind].
  assert (Hc : su2_cell tc) by (inversion H; assumption). destruct (su2_cell_facts tc Hc) as (-> & _). cbn [of_option bind].
  cbn [length]. rewrite map_length, app_length.
  assert (Ee : (if Nat.eqb (length (snd tc) + 1) (S (length (snd tc) + length (ext extra 0))) then Ok false
          else if Nat.eqb (length (snd tc) + 2) (S (length (snd tc) + length (ext extra 0))) then Ok true else Err ReadError) = Ok extra).
  { unfold ext. destruct extra; cbn [length].
    - replace (Nat.eqb (length (snd tc) + 1) _) with false by lia. now replace (Nat.eqb (length (snd tc) + 2) _) with true by lia.
    - now replace (Nat.eqb (length (snd tc) + 1) _) with true by lia. }
  rewrite Ee. cbn [bind].
  rewrite parse_ints_ok. cbn [bind]. rewrite translate_ok by (now apply enum_cells). reflexivity.
Qed.

Section Su2File.
Context {fl : floats}.
Hypothesis fok : floats_ok fl.
Implicit Type st : su2_state fl.

Lemma step_elems name extra tag cells rest st : (name = "NELEM" /\ tag = 0%Z \/ name = "MARKER_ELEMS" /\ tag = s_tag st) ->
  Forall su2_cell cells -> cells <> [] ->
  su2_step st (name ++ "= " ++ str_of_nat (length cells))%string (su2_rows extra cells ++ rest) =
  Ok (Su2State (s_dim st) (s_points st) (s_blocks st ++ sec_blocks tag cells) (s_tag st), rest).
Proof.
  intros Hn Hc Hne. unfold su2_step. rewrite str_of_nat_Z.
  destruct (key_line name (Z.of_nat (length cells))) as [-> ->].
  { destruct Hn as [[-> _]|[-> _]]; reflexivity. }
  { destruct Hn as [[-> _]|[-> _]]; reflexivity. }
  rewrite <- str_of_nat_Z.
  destruct Hn as [[-> Et]|[-> Et]].
  - change (String.eqb ("NELEM" ++ _) "") with false. change (startswith ("NELEM" ++ _) "%") with false. cbn [orb].
    cbn [String.eqb Ascii.eqb Bool.eqb orb]. rewrite elems_ok by auto. cbn [bind fst snd]. now subst tag.
  - change (String.eqb ("MARKER_ELEMS" ++ _) "") with false. change (startswith ("MARKER_ELEMS" ++ _) "%") with false. cbn [orb].
    cbn [String.eqb Ascii.eqb Bool.eqb orb]. rewrite elems_ok by auto. cbn [bind fst snd]. now subst tag.
Qed.
Lemma step_tag z rest st :
  su2_step st ("MARKER_TAG= " ++ str_of_Z z)%string rest = Ok (Su2State (s_dim st) (s_points st) (s_blocks st) z, rest).
Proof.
  unfold su2_step. change ("MARKER_TAG= " ++ str_of_Z z)%string with ("MARKER_TAG" ++ "= " ++ str_of_Z z)%string.
  destruct (key_line "MARKER_TAG" z) as [-> ->]; try reflexivity.
  change (String.eqb ("MARKER_TAG" ++ _) "") with false. change (startswith ("MARKER_TAG" ++ _) "%") with false. cbn [orb].
  cbn [String.eqb Ascii.eqb Bool.eqb orb]. rewrite int_rest. reflexivity.
Qed.
Lemma rstrip_keep p s : s <> "" -> rstrip s = s -> rstrip (p ++ s) = (p ++ s)%string.
Proof. intros Hne Hs. induction p as [|a p IH]; [exact Hs|]. cbn [append rstrip]. rewrite IH. destruct (p ++ s)%string eqn:E; [|reflexivity]. destruct p, s; (congruence || discriminate). Qed.
Lemma rstrip_length s : String.length (rstrip s) <= String.length s.
Proof. induction s as [|a s IH]; [cbn; lia|]. cbn [rstrip String.length]. destruct (rstrip s); cbn [String.length] in *; [destruct (is_space a); cbn; lia|lia]. Qed.
Lemma lstrip_length s : String.length (lstrip s) <= String.length s.
Proof. induction s as [|a s IH]; [cbn; lia|]. cbn [lstrip String.length]. destruct (is_space a); cbn [String.length]; lia. Qed.
Lemma strip_parts s : strip s = s -> lstrip s = s /\ rstrip s = s.
Proof.
  intros H. assert (L : lstrip s = s).
  { unfold strip in H. destruct s as [|a s]; [reflexivity|]. cbn [lstrip] in *. destruct (is_space a); [|reflexivity].
    apply (f_equal String.length) in H. pose proof (rstrip_length (lstrip s)). pose proof (lstrip_length s). cbn [String.length] in H. lia. }
  split; [exact L|]. unfold strip in H. now rewrite L in H.
Qed.
Lemma step_name s rest st : s <> "" -> strip s = s -> char_in "=" s = false -> parse_Z s = None ->
  su2_step st ("MARKER_TAG= " ++ s)%string rest = Ok (Su2State (s_dim st) (s_points st) (s_blocks st) (s_tag st + 1)%Z, rest).
Proof.
  intros Hne Hs He Hz. destruct (strip_parts s Hs) as [Hl Hr]. unfold su2_step.
  assert (E : strip ("MARKER_TAG= " ++ s)%string = ("MARKER_TAG= " ++ s)%string).
  { unfold strip. change (lstrip ("MARKER_TAG= " ++ s)) with ("MARKER_TAG= " ++ s)%string. now apply rstrip_keep. }
  rewrite E. change (String.eqb ("MARKER_TAG= " ++ s) "") with false. change (startswith ("MARKER_TAG= " ++ s) "%") with false. cbn [orb].
  change ("MARKER_TAG= " ++ s)%string with ("MARKER_TAG" ++ String "=" (String " " s))%string.
  rewrite split_char_app by reflexivity. rewrite split_char_single by (cbn; exact He). cbn [String.eqb Ascii.eqb Bool.eqb orb].
  assert (E2 : int_line (String " " s) = Err ValueError).
  { unfold int_line, strip. change (lstrip (String " " s)) with (lstrip s). rewrite Hl, Hr, Hz. reflexivity. }
  now rewrite E2.
Qed.
Lemma step_label l rest st : label_ok l ->
  su2_step st ("MARKER_TAG= " ++ label_text l)%string rest =
  Ok (Su2State (s_dim st) (s_points st) (s_blocks st) (match l with Tag z => z | Name _ => (s_tag st + 1)%Z end), rest).
Proof. destruct l as [z|s]; [intros _; apply step_tag|]. intros (H1 & H2 & H3 & H4). now apply step_name. Qed.
Lemma step_nmark n rest st : su2_step st ("NMARK= " ++ str_of_nat n)%string rest = Ok (st, rest).
Proof.
  unfold su2_step. rewrite str_of_nat_Z. change ("NMARK= " ++ str_of_Z (Z.of_nat n))%string with ("NMARK" ++ "= " ++ str_of_Z (Z.of_nat n))%string.
  destruct (key_line "NMARK" (Z.of_nat n)) as [-> ->]; try reflexivity.
  change (String.eqb ("NMARK" ++ _) "") with false. change (startswith ("NMARK" ++ _) "%") with false. cbn [orb].
  cbn [String.eqb Ascii.eqb Bool.eqb orb]. rewrite int_rest. reflexivity.
Qed.
Lemma step_ndime n rest st : n = 2 \/ n = 3 ->
  su2_step st ("NDIME= " ++ str_of_nat n)%string rest = Ok (Su2State (Z.of_nat n) (s_points st) (s_blocks st) (s_tag st), rest).
Proof. intros [-> | ->]; reflexivity. Qed.

Lemma step_npoin dim (pts : list (list fl)) rest st : s_dim st = Z.of_nat dim -> dim <> 0 ->
  pts <> [] -> Forall (fun p => length p = dim) pts -> solid rest ->
  su2_step st ("NPOIN= " ++ str_of_nat (length pts))%string (map (fun p => row_line (map ffmt p)) pts ++ rest) =
  Ok (Su2State (s_dim st) (Some pts) (s_blocks st) (s_tag st), rest).
Proof.
  intros Hd Hd0 Hne Hp Hr. unfold su2_step. rewrite str_of_nat_Z.
  change ("NPOIN= " ++ str_of_Z (Z.of_nat (length pts)))%string with ("NPOIN" ++ "= " ++ str_of_Z (Z.of_nat (length pts)))%string.
  destruct (key_line "NPOIN" (Z.of_nat (length pts))) as [-> ->]; try reflexivity.
  change (String.eqb ("NPOIN" ++ _) "") with false. change (startswith ("NPOIN" ++ _) "%") with false. cbn [orb].
  cbn [String.eqb Ascii.eqb Bool.eqb orb].
  destruct pts as [|p0 pts]; [congruence|]. inversion Hp as [|? ? H0 Hp']; subst.
  unfold su2_points. cbn [map app line1 hd tl].
  rewrite split_ws_join by (now apply words_floats). rewrite parse_floats_ok by auto. cbn [bind].
  assert (Es : split_ws (" " ++ str_of_Z (Z.of_nat (length (p0 :: pts)))) = [str_of_Z (Z.of_nat (length (p0 :: pts)))]).
  { pose proof (split_ws_join [str_of_Z (Z.of_nat (length (p0 :: pts)))]) as X. cbn [forallb join String.concat] in X.
    rewrite word_str_of_Z in X. exact (X eq_refl). }
  rewrite Es, parse_Z_str_of_Z. cbn [of_option bind]. replace (_ <? 1)%Z with false by (cbn [length]; lia).
  rewrite Nat2Z.id. cbn [length]. rewrite Nat.sub_succ, Nat.sub_0_r.
  rewrite <- (map_map (map ffmt) row_line), take_rows.
  2:{ exact Hr. }
  2:{ apply (words_good _ (length p0)); auto. intros v. apply fok. }
  2:{ rewrite concat_map_map, map_length, (concat_uniform_length (length p0)) by auto. lia. }
  cbn [of_option bind fst snd]. rewrite concat_map_map, parse_floats_ok by auto. cbn [bind].
  replace (Nat.eqb (length p0) 0) with false by lia. rewrite chunks_concat by (auto; lia). cbn [fst snd].
  rewrite Hd. replace (_ <? _)%Z with false by lia. reflexivity.
Qed.

Lemma loop_cons fuel st l ls r : su2_step st l ls = Ok r -> su2_loop (S fuel) st (l :: ls) = su2_loop fuel (fst r) (snd r).
Proof. intros E. cbn [su2_loop]. now rewrite E. Qed.

Definition marker_lines (extra : bool) (m : su2_label * list (string * cell)) : list string :=
  [("MARKER_TAG= " ++ label_text (fst m))%string; ("MARKER_ELEMS= " ++ str_of_nat (length (snd m)))%string] ++ su2_rows extra (snd m).
Lemma loop_markers extra markers st fuel :
  Forall (fun m => label_ok (fst m) /\ Forall su2_cell (snd m) /\ snd m <> []) markers ->
  length (flat_map (marker_lines extra) markers) <= fuel ->
  exists tag, su2_loop fuel st (flat_map (marker_lines extra) markers) =
    Ok (Su2State (s_dim st) (s_points st) (s_blocks st ++ flat_map (fun m => sec_blocks (fst m) (snd m)) (su2_tags (s_tag st) markers)) tag).
Proof.
  intros H. revert st fuel. induction H as [|[lab cells] markers (Hlab & Hc & Hne) H IH]; intros st fuel Hf.
  - exists (s_tag st). cbn. rewrite app_nil_r. destruct st, fuel; reflexivity.
  - cbn [flat_map fst snd su2_tags] in *. unfold marker_lines at 1. unfold marker_lines at 1 in Hf. cbn [fst snd] in *. rewrite app_length in Hf. cbn [app length] in Hf. rewrite rows_length in Hf.
    destruct fuel as [|[|fuel]]; try lia. cbn [app].
    rewrite (loop_cons (S fuel) st _ _ _ (step_label lab _ st Hlab)). cbn [fst snd].
    set (tag := match lab with Tag z => z | Name _ => (s_tag st + 1)%Z end).
    change ("MARKER_ELEMS= " ++ str_of_nat (length cells))%string with ("MARKER_ELEMS" ++ "= " ++ str_of_nat (length cells))%string.
    rewrite (loop_cons fuel _ _ _ _ (step_elems "MARKER_ELEMS" extra tag cells _ (Su2State (s_dim st) (s_points st) (s_blocks st) tag) (or_intror (conj eq_refl eq_refl)) Hc Hne)).
    cbn [fst snd s_dim s_points s_blocks s_tag].
    destruct (IH (Su2State (s_dim st) (s_points st) (s_blocks st ++ sec_blocks tag cells) tag) fuel) as [tag' E]; [lia|].
    exists tag'. rewrite E. cbn [s_dim s_points s_blocks s_tag]. now rewrite <- app_assoc.
Qed.
Lemma su2_tags_forall (P : list (string * cell) -> Prop) markers : forall z, Forall (fun m => P (snd m)) markers -> Forall (fun m => P (snd m)) (su2_tags z markers).
Proof. induction markers as [|[l c] ms IH]; intros z H; [constructor|]. inversion H; subst. constructor; auto. Qed.

Lemma sec_tagged t z cells : Forall su2_cell cells -> tagged t (sec_blocks z cells) = tagged_type t (map (fun tc => (tc, z)) cells).
Proof.
  intros H. unfold sec_blocks. apply translate_tagged; auto.
  - apply enumerate_snd.
  - apply zunique_NoDup.
  - intros tc Hin. apply zunique_In. rewrite <- (map_map snd (fun tc => su2_code (fst tc))), enumerate_snd. now apply (in_map (fun tc => su2_code (fst tc))).
Qed.
Lemma sec_aligned z cells : Forall aligned (sec_blocks z cells).
Proof. unfold sec_blocks. apply Forall_map, Forall_forall. intros b _. unfold aligned, with_tag. cbn. apply repeat_length. Qed.
Lemma sec_types z cells : Forall su2_cell cells ->
  NoDup (btypes (sec_blocks z cells)) /\ incl (btypes (sec_blocks z cells)) (map fst cells).
Proof.
  intros H. unfold sec_blocks, btypes. rewrite !map_map. cbn [with_tag fst btype].
  rewrite <- (map_map snd (fun tc : string * cell => su2_code (fst tc))), enumerate_snd.
  assert (G : forall u, In u (zunique (map (fun tc : string * cell => su2_code (fst tc)) cells)) -> exists tc, In tc cells /\ u = su2_code (fst tc) /\ type_of_code u = fst tc).
  { intros u Hu. apply (proj1 (zunique_In _ _)) in Hu. apply in_map_iff in Hu. destruct Hu as (tc & <- & Hin). exists tc. repeat split; auto.
    unfold type_of_code. rewrite Forall_forall in H. now destruct (su2_cell_facts tc (H tc Hin)) as (_ & -> & _). }
  split.
  - assert (N := zunique_NoDup (map (fun tc : string * cell => su2_code (fst tc)) cells)). revert G N.
    generalize (zunique (map (fun tc : string * cell => su2_code (fst tc)) cells)). intros us G N. induction N as [|u us Hn N IH]; [constructor|].
    cbn [map]. constructor; [|apply IH; intros; apply G; now right]. intros Hin. apply in_map_iff in Hin. destruct Hin as (v & Ev & Hv).
    destruct (G u (or_introl eq_refl)) as (tc & _ & Eu & Et). destruct (G v (or_intror Hv)) as (tc' & _ & Ev' & Et').
    apply Hn. rewrite Eu, <- Et, <- Ev, Et', <- Ev'. exact Hv.
  - intros t Ht. apply in_map_iff in Ht. destruct Ht as (u & <- & Hu). destruct (G u Hu) as (tc & Hin & _ & ->). now apply in_map.
Qed.


Lemma count_le (l : list string) t : NoDup l -> length (filter (String.eqb t) l) <= 1.
Proof.
  induction 1 as [|x l Hn N IH]; [cbn; lia|]. cbn [filter]. destruct (String.eqb_spec t x) as [<-|]; [|exact IH].
  cbn [length]. rewrite filter_false; [cbn; lia|]. intros y Hy. destruct (String.eqb_spec t y); [congruence|reflexivity].
Qed.

Theorem su2_read dim extra (pts : list (list fl)) elems markers :
  dim = 2 \/ dim = 3 -> pts <> [] -> Forall (fun p => length p = dim) pts ->
  Forall su2_cell elems -> elems <> [] -> Forall (fun m => label_ok (fst m) /\ Forall su2_cell (snd m) /\ snd m <> []) markers ->
  exists blocks tags, read_su2 (su2_file dim extra pts elems markers) = Ok (pts, blocks, tags) /\
    Forall2 (fun b tg => length tg = blen b) blocks tags /\
    (forall t, tagged_blocks t blocks tags = tagged_type t (su2_tagged elems markers)) /\
    (Forall (fun tc => ~ In (fst tc) (boundary_types dim)) elems ->
     Forall (fun m => Forall (fun tc => In (fst tc) (boundary_types dim)) (snd m)) markers -> NoDup (map btype blocks)).
Proof.
  intros Hdim Hne Hp He Hene Hlm.
  set (tms := su2_tags 0 markers).
  assert (Hm : Forall (fun m => Forall su2_cell (snd m) /\ snd m <> []) tms).
  { unfold tms. apply (su2_tags_forall (fun c => Forall su2_cell c /\ c <> [])). eapply Forall_impl; [|exact Hlm]. tauto. }
  assert (Hd0 : dim <> 0) by lia.
  unfold read_su2.
  set (mk := flat_map (fun m => [("MARKER_TAG= " ++ label_text (fst m))%string; ("MARKER_ELEMS= " ++ str_of_nat (length (snd m)))%string] ++ su2_rows extra (snd m)) markers).
  assert (Emk : mk = flat_map (marker_lines extra) markers) by reflexivity.
  set (blocks := sec_blocks 0 elems ++ flat_map (fun m => sec_blocks (fst m) (snd m)) tms).
  assert (El : exists tag, su2_loop (length (su2_file dim extra pts elems markers)) (Su2State 0 None [] 0) (su2_file dim extra pts elems markers) =
                 Ok (Su2State (Z.of_nat dim) (Some pts) blocks tag)).
  { unfold su2_file. fold mk. cbn [app length].
    rewrite (loop_cons _ _ _ _ _ (step_ndime dim _ _ Hdim)). cbn [fst snd].
    cbn [s_dim s_points s_blocks s_tag].
    assert (Hs : forall r, solid (("NELEM= " ++ str_of_nat (length elems))%string :: r)).
    { intros r. apply solid_cons. rewrite str_of_nat_Z. apply (blank_row ["NELEM="; str_of_Z (Z.of_nat (length elems))]); [|discriminate].
      cbn [forallb]. now rewrite word_str_of_Z. }
    rewrite (loop_cons _ _ _ _ _ (step_npoin dim pts _ (Su2State (Z.of_nat dim) None [] 0%Z) eq_refl Hd0 Hne Hp (Hs _))).
    cbn [fst snd s_dim s_points s_blocks s_tag]. rewrite app_length. cbn [length].
    rewrite Nat.add_succ_r.
    change ("NELEM= " ++ str_of_nat (length elems))%string with ("NELEM" ++ "= " ++ str_of_nat (length elems))%string.
    rewrite (loop_cons _ _ _ _ _ (step_elems "NELEM" extra 0%Z elems _ _ (or_introl (conj eq_refl eq_refl)) He Hene)).
    cbn [fst snd s_dim s_points s_blocks s_tag]. rewrite app_length. cbn [length]. rewrite !Nat.add_succ_r.
    rewrite (loop_cons _ _ _ _ _ (step_nmark _ _ _)). cbn [fst snd]. rewrite Emk.
    destruct (loop_markers extra markers (Su2State (Z.of_nat dim) (Some pts) (sec_blocks 0 elems) 0%Z)
      (length (map (fun p : list fl => row_line (map ffmt p)) pts) + (length (su2_rows extra elems) + length (flat_map (marker_lines extra) markers)))) as [tag E]; auto; [lia|].
    exists tag. exact E. }
  destruct El as [tag El]. rewrite El. cbn [bind s_dim s_points s_blocks].
  assert (Hal : Forall aligned blocks).
  { unfold blocks. apply Forall_app. split; [apply sec_aligned|]. rewrite flat_map_concat_map. apply Forall_concat, Forall_map, Forall_forall. intros m _. apply sec_aligned. }
  assert (Htg : forall t, tagged t blocks = tagged_type t (su2_tagged elems markers)).
  { intros t. unfold blocks, su2_tagged. rewrite tagged_app, sec_tagged by auto. unfold tagged_type. rewrite filter_app, map_app. f_equal.
    fold tms. clear - Hm. induction Hm as [|m l [Hc _] Hm IH]; [reflexivity|]. cbn [flat_map]. rewrite tagged_app, sec_tagged, filter_app, map_app by auto.
    f_equal. exact IH. }
  replace (if (Z.of_nat dim =? 2)%Z then ["line"] else ["triangle"; "quad"]) with (boundary_types dim) by (destruct Hdim as [-> | ->]; reflexivity).
  set (merged := fold_left (fun l t => su2_merge t l) (boundary_types dim) blocks).
  assert (G : Forall aligned merged /\ (forall t, tagged t merged = tagged t blocks) /\
     (forall t, length (filter (String.eqb t) (btypes merged)) =
        if existsb (String.eqb t) (boundary_types dim) then Nat.min 1 (length (filter (String.eqb t) (btypes blocks))) else length (filter (String.eqb t) (btypes blocks)))).
  { unfold merged. clearbody blocks. clear - Hal. revert blocks Hal. induction (boundary_types dim) as [|u us IH]; intros blocks Hal; [cbn; auto|].
    cbn [fold_left]. destruct (IH (su2_merge u blocks) (merge_aligned u _ Hal)) as (H1 & H2 & H3). split; [exact H1|]. split.
    - intros t. now rewrite H2, merge_tagged.
    - intros t. rewrite H3, merge_count. cbn [existsb]. rewrite (String.eqb_sym u t). destruct (String.eqb t u), (existsb (String.eqb t) us); cbn [orb]; lia. }
  destruct G as (Gal & Gtg & Gct). cbn [of_option bind]. exists (map fst merged), (map snd merged). split; [reflexivity|]. split; [|split].
  - clear - Gal. induction Gal; cbn; constructor; auto.
  - intros t. rewrite <- Htg, <- Gtg. unfold tagged_blocks, tagged. f_equal. clear. induction merged as [|[b tg] l IH]; cbn; congruence.
  - intros Hel Hmk'. assert (Hmk : Forall (fun m => Forall (fun tc => In (fst tc) (boundary_types dim)) (snd m)) tms) by (now apply (su2_tags_forall (fun c => Forall (fun tc => In (fst tc) (boundary_types dim)) c))). rewrite map_map. change (map (fun x => btype (fst x)) merged) with (btypes merged). apply NoDup_count. intros t. rewrite Gct.
    destruct (existsb (String.eqb t) (boundary_types dim)) eqn:Eb; [lia|].
    unfold blocks, btypes. rewrite map_app, filter_app, app_length. fold (btypes (sec_blocks 0 elems)).
    pose proof (count_le _ t (proj1 (sec_types 0 elems He))) as Hle.
    replace (length (filter (String.eqb t) (map (fun bt => btype (fst bt)) (flat_map (fun m => sec_blocks (fst m) (snd m)) tms)))) with 0; [lia|].
    symmetry. apply length_zero_iff_nil, filter_false. intros y Hy. destruct (String.eqb_spec t y) as [<-|]; [|reflexivity]. exfalso.
    apply in_map_iff in Hy. destruct Hy as (bt & Ebt & Hbt). apply in_flat_map in Hbt. destruct Hbt as (m & Hin & Hbt).
    rewrite Forall_forall in Hmk, Hm. destruct (Hm m Hin) as [Hc _]. pose proof (proj2 (sec_types (fst m) (snd m) Hc)) as Hi.
    assert (Ht : In t (map fst (snd m))) by (apply Hi; rewrite <- Ebt; now apply (in_map (fun bt => btype (fst bt)))).
    apply in_map_iff in Ht. destruct Ht as (tc & Etc & Htc). pose proof (proj1 (Forall_forall _ _) (Hmk m Hin) tc Htc) as Hbd. cbn in Hbd. rewrite Etc in Hbd.
    assert (X : existsb (String.eqb t) (boundary_types dim) = true) by (apply existsb_exists; exists t; split; [exact Hbd|apply String.eqb_refl]).
    congruence.
Qed.

(** ** The writer *)
Lemma smem_In t l : smem t l = true <-> In t l.
Proof. unfold smem. rewrite existsb_exists. split; [intros (x & Hx & E); apply String.eqb_eq in E; now subst|]. intros H. exists t. split; [exact H|apply String.eqb_refl]. Qed.

Theorem su2_write dim (pts : list (list fl)) cells :
  Forall (fun tc => In (fst tc) (internal_types dim) -> su2_cell tc) (all_cells cells) ->
  write_su2 dim pts cells =
  if existsb (fun tc => smem (fst tc) (boundary_types dim)) (all_cells cells) then Err TypeError
  else Ok (su2_file dim false pts (filter (fun tc => smem (fst tc) (internal_types dim)) (all_cells cells)) []).
Proof.
  intros H. unfold write_su2. fold (internal_types dim). fold (boundary_types dim).
  set (vol := filter (fun b => smem (btype b) (internal_types dim)) cells).
  assert (Ev : filter (fun tc => smem (fst tc) (internal_types dim)) (all_cells cells) = all_cells vol).
  { unfold vol, all_cells. clear. induction cells as [|b bs IH]; [reflexivity|]. cbn [flat_map filter]. rewrite filter_app, IH.
    rewrite filter_map_swap. cbn [fst]. destruct (smem (btype b) (internal_types dim)).
    - cbn [flat_map]. f_equal. f_equal. apply filter_true. auto.
    - now rewrite filter_false. }
  assert (Hv : Forall (fun b => smem (btype b) (internal_types dim) = true) vol) by (apply Forall_forall; intros b Hb; unfold vol in Hb; apply filter_In in Hb; tauto).
  assert (Er : exists rows, mapM (fun b => do c <- of_option KeyError (dget (btype b) meshio_to_su2); Ok (map (su2_line c) (bdata b))) vol = Ok rows /\
     concat rows = su2_rows false (all_cells vol)).
  { assert (Ecells : Forall su2_cell (all_cells vol)).
    { rewrite <- Ev. apply Forall_forall. intros tc Htc. apply filter_In in Htc. rewrite Forall_forall in H. destruct Htc as [Hin Hs]. apply H; [exact Hin|]. now apply smem_In. }
    assert (Rw : forall L, su2_rows false L = map (fun tc : string * cell => row_line (map str_of_Z (su2_code (fst tc) :: snd tc))) L).
    { intros L. unfold su2_rows. rewrite <- (enumerate_snd L) at 2. rewrite map_map. apply map_ext. intros kc. now rewrite app_nil_r. }
    rewrite Rw. clear - Ecells Hv. induction Hv as [|b vol Hb Hv IH]; [exists []; split; reflexivity|].
    unfold all_cells in *. cbn [flat_map] in *. apply Forall_app in Ecells. destruct Ecells as [E1 E2]. destruct (IH E2) as (rows & Er & Ec).
    assert (Ed : dget (btype b) meshio_to_su2 = Some (su2_code (btype b))).
    { apply smem_In in Hb. unfold internal_types in Hb. destruct (Nat.eqb dim 2); cbn in Hb; repeat (destruct Hb as [<-|Hb]; [reflexivity|]); destruct Hb. }
    exists (map (su2_line (su2_code (btype b))) (bdata b) :: rows). cbn [mapM]. rewrite Ed. cbn [of_option bind]. rewrite Er. split; [reflexivity|].
    cbn [concat]. rewrite map_app, Ec, map_map. reflexivity. }
  destruct Er as (rows & Er & Ec). rewrite Er. cbn [bind]. rewrite Ev.
  assert (Eb : existsb (fun b => smem (btype b) (boundary_types dim) && negb (Nat.eqb (blen b) 0)) cells = existsb (fun tc => smem (fst tc) (boundary_types dim)) (all_cells cells)).
  { unfold all_cells. clear. induction cells as [|b bs IH]; [reflexivity|]. cbn [existsb flat_map]. rewrite existsb_app, IH. f_equal.
    unfold blen. destruct (smem (btype b) (boundary_types dim)) eqn:E.
    - destruct (bdata b); [reflexivity|]. cbn [length map existsb fst]. now rewrite E.
    - cbn. induction (bdata b); [reflexivity|]. cbn [map existsb fst]. now rewrite E. }
  rewrite Eb. destruct (existsb _ (all_cells cells)); [reflexivity|]. rewrite Ec. unfold su2_file. cbn [flat_map app length].
  replace (sum_nat (map blen vol)) with (length (all_cells vol)); [reflexivity|].
  unfold all_cells, sum_nat. clear. induction vol as [|b bs IH]; [reflexivity|]. cbn [flat_map map fold_right]. rewrite app_length, map_length. unfold blen at 1. 
  cbn. rewrite IH. reflexivity.
Qed.

Theorem su2_roundtrip dim (pts : list (list fl)) cells :
  dim = 2 \/ dim = 3 -> pts <> [] -> Forall (fun p => length p = dim) pts ->
  Forall (fun tc => In (fst tc) (internal_types dim) /\ su2_cell tc) (all_cells cells) -> all_cells cells <> [] ->
  exists file blocks tags, write_su2 dim pts cells = Ok file /\ read_su2 file = Ok (pts, blocks, tags) /\
    NoDup (map btype blocks) /\
    forall t, tagged_blocks t blocks tags = map (fun c => (c, 0%Z)) (cells_of t cells).
Proof.
  intros Hdim Hne Hp Hc Hcne.
  assert (Hdis : forall t, In t (internal_types dim) -> ~ In t (boundary_types dim)).
  { intros t. unfold internal_types, boundary_types. destruct Hdim as [-> | ->]; cbn; intuition (subst; discriminate). }
  assert (Hf : filter (fun tc => smem (fst tc) (internal_types dim)) (all_cells cells) = all_cells cells).
  { apply filter_true. intros tc Htc. apply smem_In. rewrite Forall_forall in Hc. now apply Hc. }
  assert (Hb : existsb (fun tc => smem (fst tc) (boundary_types dim)) (all_cells cells) = false).
  { apply Bool.not_true_iff_false. intros E. apply existsb_exists in E. destruct E as (tc & Hin & E). apply smem_In in E.
    rewrite Forall_forall in Hc. exact (Hdis _ (proj1 (Hc tc Hin)) E). }
  assert (Hs : Forall su2_cell (all_cells cells)) by (eapply Forall_impl; [|exact Hc]; tauto).
  destruct (su2_read dim false pts (all_cells cells) [] Hdim Hne Hp Hs Hcne (Forall_nil _)) as (bs & tags & Er & _ & Ht & Hn).
  exists (su2_file dim false pts (all_cells cells) []), bs, tags. split.
  { rewrite su2_write, Hb, Hf; [reflexivity|]. eapply Forall_impl; [|exact Hc]. tauto. }
  split; [exact Er|]. split.
  - apply Hn; [|constructor]. eapply Forall_impl; [|exact Hc]. cbn. intros tc [Hi _]. now apply Hdis.
  - intros t. rewrite Ht. unfold su2_tagged. cbn [flat_map]. rewrite app_nil_r. unfold tagged_type, cells_of.
    rewrite filter_map_swap, !map_map. reflexivity.
Qed.
End Su2File.
