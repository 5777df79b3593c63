(** Proofs about VTU polyhedra (C21). *)
From Verif.Lib Require Import Base Facts Facts2 Text TextFacts Runs.
From Verif.Model Require Import Core Vtu.
From Verif.Spec Require Import Core Vtu.
From Verif.Proofs Require Import Core.
From Coq Require Import Sorting.Sorted.

Fixpoint zsum (l : list Z) : Z := match l with [] => 0%Z | x :: xs => (x + zsum xs)%Z end.

Lemma zcumsum_app a l1 l2 : zcumsum a (l1 ++ l2) = zcumsum a l1 ++ zcumsum (a + zsum l1) l2.
Proof.
  revert a; induction l1 as [|x l1 IH]; intros a; cbn; [now rewrite Z.add_0_r|].
  rewrite IH. now rewrite Z.add_assoc.
Qed.
Lemma zcumsum_shift a b l : map (fun x => (x + b)%Z) (zcumsum a l) = zcumsum (a + b) l.
Proof.
  revert a; induction l as [|x l IH]; intros a; cbn; auto. rewrite IH. f_equal; [lia|]. f_equal. lia.
Qed.
Lemma zcumsum_last a l x t : rev (zcumsum a l) = x :: t -> x = (a + zsum l)%Z.
Proof.
  revert a x t. induction l as [|y l IH] using rev_ind; intros a x t H; [discriminate|].
  rewrite zcumsum_app, rev_app_distr in H. cbn in H. injection H as <- _.
  clear IH. induction l as [|z l IH]; cbn in *; lia.
Qed.
Lemma zsum_app a b : zsum (a ++ b) = (zsum a + zsum b)%Z.
Proof. induction a; cbn; lia. Qed.
Lemma zcumsum_nil a l : zcumsum a l = [] -> l = [].
Proof. destruct l; [auto|discriminate]. Qed.
Lemma zdiffs_zcumsum a l : zdiffs a (zcumsum a l) = l.
Proof. revert a; induction l as [|x l IH]; intros a; cbn; auto. rewrite IH. f_equal. lia. Qed.

Definition elen (c : polycell) : Z := Z.of_nat (length (poly_entry c)).

Lemma poly_face_cells_eq data cells :
  poly_face_cells data cells =
  (data ++ flat_map poly_entry cells, zcumsum (Z.of_nat (length data)) (map elen cells)).
Proof.
  revert data; induction cells as [|c cs IH]; intros data; cbn [poly_face_cells flat_map map zcumsum];
    [now rewrite app_nil_r|].
  rewrite IH, <- app_assoc. f_equal. rewrite app_length, Nat2Z.inj_add. reflexivity.
Qed.

Lemma write_poly_faces_eq cs0 bs :
  write_poly_faces (flat_map poly_entry cs0) (zcumsum 0 (map elen cs0)) bs =
  (flat_map poly_entry (cs0 ++ flat_map pdata bs), zcumsum 0 (map elen (cs0 ++ flat_map pdata bs))).
Proof.
  revert cs0; induction bs as [|b bs IH]; intros cs0; cbn [write_poly_faces flat_map];
    [now rewrite app_nil_r|].
  rewrite poly_face_cells_eq. cbn [app length]. rewrite (app_assoc cs0), <- IH.
  rewrite flat_map_app, map_app, zcumsum_app. f_equal. f_equal.
  destruct (rev (zcumsum 0 (map elen cs0))) as [|x t] eqn:E.
  - assert (E' : zcumsum 0 (map elen cs0) = []) by (now rewrite <- (rev_involutive (zcumsum _ _)), E).
    apply zcumsum_nil in E'. rewrite E'. reflexivity.
  - apply zcumsum_last in E. subst. rewrite zcumsum_shift. f_equal.
Qed.

Lemma read_faces_ok pre (c : polycell) post :
  read_faces (pre ++ flat_map (fun f => Z.of_nat (length f) :: f) c ++ post) (length c) (Z.of_nat (length pre)) = Ok c.
Proof.
  revert pre; induction c as [|f c IH]; intros pre; [reflexivity|].
  cbn [length read_faces flat_map]. rewrite znth_nat, nth_error_app2, Nat.sub_diag by lia. cbn [nth_error app of_option bind].
  unfold zslice. destruct (Z.leb_spec 0 (Z.of_nat (length pre) + 1)); [|lia].
  destruct (Z.leb_spec 0 (Z.of_nat (length pre) + Z.of_nat (length f) + 1)); [|lia]. cbn [andb bind].
  replace (Z.to_nat (Z.of_nat (length pre) + 1)) with (length pre + 1) by lia.
  replace (Z.to_nat (Z.of_nat (length pre) + Z.of_nat (length f) + 1)) with (length pre + 1 + length f) by lia.
  unfold slice. replace (length pre + 1 + length f - (length pre + 1)) with (length f) by lia.
  rewrite skipn_app, skipn_all2 by lia. replace (length pre + 1 - length pre) with 1 by lia. cbn [skipn app].
  rewrite <- app_assoc. rewrite firstn_app, firstn_all, Nat.sub_diag. cbn [firstn]. rewrite app_nil_r.
  specialize (IH (pre ++ Z.of_nat (length f) :: f)).
  rewrite app_length in IH. cbn [length] in IH.
  replace (Z.of_nat (length pre) + Z.of_nat (length f) + 1)%Z with (Z.of_nat (length pre + S (length f))) by lia.
  rewrite <- app_assoc in IH. cbn [app] in IH. rewrite IH. reflexivity.
Qed.

Lemma read_polycell_ok pre c post : c <> [] ->
  read_polycell (pre ++ poly_entry c ++ post) (Z.of_nat (length pre)) = Ok c.
Proof.
  intros Hc. unfold read_polycell. rewrite znth_nat, nth_error_app2, Nat.sub_diag by lia.
  unfold poly_entry. cbn [nth_error app of_option bind]. rewrite Nat2Z.id.
  pose proof (read_faces_ok (pre ++ [Z.of_nat (length c)]) c post) as H.
  rewrite app_length in H. cbn [length] in H. rewrite <- app_assoc in H. cbn [app] in H.
  replace (Z.of_nat (length pre) + 1)%Z with (Z.of_nat (length pre + 1)) by lia. rewrite H.
  cbn [bind]. destruct c; [congruence|reflexivity].
Qed.

Fixpoint starts_from (a : Z) (l : list Z) : list Z :=
  match l with [] => [] | x :: xs => a :: starts_from (a + x) xs end.
Lemma starts_butlast a x l : a :: butlast (zcumsum a (x :: l)) = starts_from a (x :: l).
Proof.
  revert a x; induction l as [|y l IH]; intros a x; [reflexivity|].
  cbn [starts_from] in *. f_equal. rewrite <- IH. reflexivity.
Qed.

Lemma read_cells_ok pre cells : Forall (fun c : polycell => c <> []) cells ->
  mapM (read_polycell (pre ++ flat_map poly_entry cells)) (starts_from (Z.of_nat (length pre)) (map elen cells)) = Ok cells.
Proof.
  intros H. revert pre; induction H as [|c cs Hc H IH]; intros pre; [reflexivity|].
  cbn [map flat_map starts_from mapM]. rewrite read_polycell_ok by auto. cbn [bind].
  specialize (IH (pre ++ poly_entry c)). rewrite app_length, Nat2Z.inj_add, <- app_assoc in IH.
  unfold elen at 1. rewrite IH. reflexivity.
Qed.

(** ** Grouping *)
Lemma poly_nodes_count c : length (poly_nodes c) = node_count c.
Proof.
  unfold poly_nodes, node_count. apply Nat.le_antisymm; apply NoDup_incl_length.
  - apply zunique_NoDup.
  - intros x Hx. apply nodup_In. now apply (zunique_In x (concat c)).
  - apply NoDup_nodup.
  - intros x Hx. apply nodup_In in Hx. now apply (zunique_In x (concat c)).
Qed.

Lemma poly_name_inj a b : poly_name a = poly_name b -> a = b.
Proof.
  unfold poly_name. cbn. intros H. injection H as H. unfold str_of_nat in H. apply str_of_N_inj in H. lia.
Qed.

Lemma dict_explicit {A} (d : dict A) : NoDup (dkeys d) ->
  d = flat_map (fun k => match dget k d with Some v => [(k, v)] | None => [] end) (dkeys d).
Proof.
  induction d as [|[k v] d IH]; cbn [dkeys map fst flat_map dget]; auto. intros H. inversion H as [|x l Hn Hd]; subst.
  rewrite String.eqb_refl. cbn [app]. f_equal. rewrite (IH Hd) at 1. fold (dkeys d).
  assert (E : forall l', (forall x, In x l' -> x <> k) ->
     flat_map (fun k0 => match dget k0 d with Some v0 => [(k0, v0)] | None => [] end) l' =
     flat_map (fun k0 => match (if String.eqb k0 k then Some v else dget k0 d) with Some v0 => [(k0, v0)] | None => [] end) l').
  { induction l' as [|y l' IH']; intros Hl; cbn; auto. rewrite IH' by (intros; apply Hl; now right).
    destruct (String.eqb_spec y k) as [->|]; auto. exfalso. apply (Hl k); cbn; auto. }
  apply E. intros x Hx ->. contradiction.
Qed.

Lemma NoDup_first_occurrences l : NoDup (first_occurrences l).
Proof.
  induction l as [|x l IH]; cbn; constructor.
  - intros H. apply filter_In in H. now rewrite String.eqb_refl in H.
  - now apply NoDup_filter.
Qed.
Lemma first_numbers_names l : first_occurrences (map poly_name l) = map poly_name (first_numbers l).
Proof.
  induction l as [|x l IH]; cbn [map first_occurrences first_numbers]; auto. f_equal. rewrite IH. clear IH.
  induction (first_numbers l) as [|y ys IH]; cbn [map filter]; auto.
  destruct (Nat.eqb_spec y x) as [->|Hne].
  - rewrite String.eqb_refl. cbn [negb]. exact IH.
  - destruct (String.eqb_spec (poly_name y) (poly_name x)) as [E|_]; [now apply poly_name_inj in E|].
    cbn [negb map]. now rewrite IH.
Qed.

Lemma In_first_numbers l n : In n (first_numbers l) <-> In n l.
Proof.
  induction l as [|x l IH]; cbn; [tauto|]. rewrite filter_In, IH.
  destruct (Nat.eqb_spec n x) as [->|]; cbn; intuition congruence.
Qed.

Lemma poly_blocks_explicit cells :
  fold_left (fun acc c => add_to (poly_key c) c acc) cells [] = by_node_count cells.
Proof.
  set (d := fold_left (fun acc c => add_to (poly_key c) c acc) cells []) in *.
  assert (Hkey : forall c, poly_key c = poly_name (node_count c)).
  { intros c. unfold poly_key, poly_name. now rewrite poly_nodes_count. }
  assert (Hk : dkeys d = map poly_name (first_numbers (map node_count cells))).
  { unfold d. rewrite (dkeys_group poly_key (fun c => c)). cbn [dkeys map app].
    replace (map poly_key cells) with (map poly_name (map node_count cells)).
    2: { rewrite map_map. apply map_ext. intros. now rewrite Hkey. }
    rewrite first_numbers_names. cbn.
    induction (map poly_name _) as [|x xs IH]; cbn; auto. now rewrite IH. }
  rewrite (dict_explicit d).
  2: { rewrite Hk, <- first_numbers_names. apply NoDup_first_occurrences. }
  rewrite Hk. clear Hk. unfold by_node_count.
  assert (Hin : forall n, In n (first_numbers (map node_count cells)) -> In n (map node_count cells))
    by (intros; now apply In_first_numbers).
  induction (first_numbers (map node_count cells)) as [|n ns IH]; cbn [map flat_map]; auto.
  rewrite IH by (intros; apply Hin; now right).
  assert (Hf : filter (fun c => String.eqb (poly_key c) (poly_name n)) cells =
               filter (fun c => Nat.eqb (node_count c) n) cells).
  { apply filter_ext. intros c. rewrite Hkey.
    destruct (Nat.eqb_spec (node_count c) n) as [->|Hne]; [apply String.eqb_refl|].
    apply String.eqb_neq. intros E. now apply poly_name_inj in E. }
  unfold d. rewrite (dget_group poly_key (fun c => c)). rewrite map_id, Hf.
  destruct (filter (fun c => Nat.eqb (node_count c) n) cells) as [|c cs] eqn:E; [|reflexivity].
  exfalso. specialize (Hin n (or_introl eq_refl)). apply in_map_iff in Hin. destruct Hin as (c & Hc & Hin).
  assert (In c []) by (rewrite <- E; apply filter_In; split; auto; now apply Nat.eqb_eq). contradiction.
Qed.

(** ** Data *)
Lemma sorted_unique (l1 l2 : list Z) : StronglySorted Z.lt l1 -> StronglySorted Z.lt l2 ->
  (forall x, In x l1 <-> In x l2) -> l1 = l2.
Proof.
  intros H1; revert l2; induction H1 as [|x l1 H1 IH F1]; intros l2 H2 Hin.
  - destruct l2 as [|y l2]; auto. destruct (proj2 (Hin y) (or_introl eq_refl)).
  - destruct H2 as [|y l2 H2 F2]; [destruct (proj1 (Hin x) (or_introl eq_refl))|].
    rewrite Forall_forall in F1, F2.
    assert (x = y).
    { destruct (proj1 (Hin x) (or_introl eq_refl)) as [E|E]; [auto|].
      destruct (proj2 (Hin y) (or_introl eq_refl)) as [E'|E']; [auto|].
      apply F2 in E. apply F1 in E'. lia. }
    subst y. f_equal. apply IH; auto. intros z. split; intros Hz.
    + destruct (proj1 (Hin z) (or_intror Hz)) as [E|E]; auto. subst z. apply F1 in Hz. lia.
    + destruct (proj2 (Hin z) (or_intror Hz)) as [E|E]; auto. subst z. apply F2 in Hz. lia.
Qed.

Lemma where_from_select {A V} (f : A -> bool) (l : list A) (d0 d : list V) : length d = length l ->
  flat_map (fun i => match nth_error (d0 ++ d) i with Some v => [v] | None => [] end) (where_from f (length d0) l) =
  map snd (filter (fun cv => f (fst cv)) (combine l d)).
Proof.
  revert d0 d; induction l as [|x l IH]; intros d0 [|v d] H; try discriminate; [reflexivity|].
  injection H as H. cbn [where_from combine filter fst].
  specialize (IH (d0 ++ [v]) d H). rewrite app_length in IH. cbn [length] in IH.
  rewrite Nat.add_1_r, <- app_assoc in IH. cbn [app] in IH.
  destruct (f x); cbn [flat_map map snd]; rewrite IH; auto.
  rewrite nth_error_app2, Nat.sub_diag by lia. reflexivity.
Qed.

Lemma combine_map_l {A B C} (f : A -> B) (l : list A) (d : list C) :
  combine (map f l) d = map (fun p => (f (fst p), snd p)) (combine l d).
Proof. revert d; induction l as [|x l IH]; intros [|y d]; cbn; auto. now rewrite IH. Qed.

Lemma filter_map_swap {A B} (f : B -> bool) (g : A -> B) l : filter f (map g l) = map g (filter (fun x => f (g x)) l).
Proof. induction l as [|x l IH]; cbn; auto. destruct (f (g x)); cbn; now rewrite IH. Qed.

Theorem poly_roundtrip bs : forallb (fun b => startswith (ptype b) "polyhedron") bs = true ->
  flat_map pdata bs <> [] -> Forall (fun c : polycell => c <> []) (flat_map pdata bs) ->
  exists pa items, write_poly bs = Ok pa /\
    read_poly (pa_offsets pa) (pa_faces pa) (pa_faceoffsets pa) = Ok (by_node_count (flat_map pdata bs), items) /\
    forall V (d : list V) ns, length d = length (flat_map pdata bs) ->
      StronglySorted lt ns -> (forall n, In n ns <-> In n (map node_count (flat_map pdata bs))) ->
      poly_data items d = map (fun n => values_with n (flat_map pdata bs) d) ns.
Proof.
  intros Ht Hne Hc. set (cells := flat_map pdata bs) in *. unfold write_poly. rewrite Ht.
  pose proof (write_poly_faces_eq [] bs) as Hw. cbn [flat_map map zcumsum app] in Hw. rewrite Hw.
  eexists _, _. split; [reflexivity|]. cbn [pa_offsets pa_faces pa_faceoffsets]. fold cells. unfold read_poly.
  assert (Hs : 0%Z :: butlast (zcumsum 0 (map elen cells)) = starts_from 0 (map elen cells)).
  { destruct cells; [congruence|]. apply (starts_butlast 0). }
  rewrite Hs. pose proof (read_cells_ok [] cells Hc) as Hr. cbn [app length Z.of_nat] in Hr. rewrite Hr. cbn [bind].
  rewrite zdiffs_zcumsum, poly_blocks_explicit. split; [reflexivity|].
  intros V d ns Hd Hsort Hns. unfold poly_data.
  set (size := map (fun c => Z.of_nat (length (poly_nodes c))) cells).
  assert (Hu : zunique size = map Z.of_nat ns).
  { apply sorted_unique.
    - apply zunique_sorted.
    - clear Hns. induction Hsort as [|n ns Hs' IH HF]; cbn; constructor; auto.
      apply Forall_forall. intros z Hz. apply in_map_iff in Hz. destruct Hz as (m & <- & Hm).
      rewrite Forall_forall in HF. specialize (HF m Hm). lia.
    - intros z. rewrite zunique_In. unfold size. rewrite !in_map_iff. split.
      + intros (c & <- & Hin). exists (length (poly_nodes c)). split; auto. apply Hns.
        rewrite poly_nodes_count. now apply in_map.
      + intros (n & <- & Hn). apply Hns, in_map_iff in Hn. destruct Hn as (c & <- & Hin).
        exists c. split; auto. now rewrite poly_nodes_count. }
  rewrite Hu, !map_map. apply map_ext. intros n. unfold where_.
  pose proof (where_from_select (Z.eqb (Z.of_nat n)) size [] d) as Hsel. cbn [app length] in Hsel.
  rewrite Hsel by (unfold size; rewrite map_length; auto).
  unfold size. rewrite combine_map_l, filter_map_swap, map_map. cbn [fst snd]. unfold values_with.
  apply f_equal. apply filter_ext. intros [c v]. cbn [fst]. rewrite poly_nodes_count.
  rewrite Nat.eqb_sym. destruct (Nat.eqb_spec n (node_count c)); [subst; apply Z.eqb_refl|apply Z.eqb_neq; lia].
Qed.
