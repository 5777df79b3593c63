(** Proofs about Model/Core.v. *)
From Coq Require Import Sorted.
From Verif.Lib Require Import Base Facts Text TextFacts.
From Verif.Model Require Import Core.
From Verif.Spec Require Import Core.

(** ** C01 constructor *)
Lemma cellblock_dim_known t : (exists d, cellblock_dim t = Ok d) <-> known_type t.
Proof.
  unfold cellblock_dim, known_type, startswith.
  destruct (String.prefix "polyhedron" t) eqn:E.
  - split; eauto.
  - split.
    + intros [d H]. right. destruct (dget t topological_dimension) eqn:G; [|discriminate].
      now apply dget_Some_key in G.
    + intros [H|H]; [discriminate|].
      destruct (dget t topological_dimension) eqn:G; cbn; eauto.
      apply dget_None in G. contradiction.
Qed.

Lemma cellblock_dim_err t e : cellblock_dim t = Err e -> e = KeyError.
Proof.
  unfold cellblock_dim. destruct (startswith t "polyhedron"); [discriminate|].
  destruct (dget t topological_dimension); cbn; congruence.
Qed.

Lemma make_blocks_ok cs bs :
  make_blocks cs = Ok bs <->
  (forall t d, In (t, d) cs -> known_type t) /\ bs = map (fun c => Block (fst c) (snd c)) cs.
Proof.
  revert bs; induction cs as [|[t d] cs IH]; intros bs; cbn.
  - split; [intros H; injection H as <-; split; auto; tauto | intros [_ ->]; auto].
  - destruct (cellblock_dim t) as [n|e] eqn:E; cbn.
    + destruct (make_blocks cs) as [bs'|e'] eqn:G; cbn.
      * destruct (proj1 (IH bs') eq_refl) as [H1 H2]. split.
        -- intros H; injection H as <-. split; [|now rewrite H2].
           intros t' d' [Heq|Hin]; eauto. injection Heq as <- <-.
           apply cellblock_dim_known; eauto.
        -- intros [_ ->]. now rewrite H2.
      * split; [discriminate|]. intros [H1 H2]. exfalso.
        assert (Err e' = Ok (map (fun c => Block (fst c) (snd c)) cs)) as X; [|discriminate].
        apply IH. split; eauto.
    + split; [discriminate|]. intros [H1 _]. exfalso.
      destruct (proj2 (cellblock_dim_known t)) as [x Hx]; [eauto|congruence].
Qed.

Lemma check_point_data_ok {F} n (pd : dict (arr F)) :
  check_point_data n pd = Ok tt <-> forall name a, In (name, a) pd -> alen a = n.
Proof.
  induction pd as [|[k a] pd IH]; cbn; [split; auto; tauto|].
  destruct (Nat.eqb_spec (alen a) n) as [E|E].
  - rewrite IH. split; intros H name b; [intros [Heq|Hin]|]; eauto. congruence.
  - split; [discriminate|]. intros H. exfalso. eauto.
Qed.

Lemma check_lengths_ok {F} (data : list (arr F)) bs :
  length data = length bs ->
  (check_lengths data bs = Ok tt <-> Forall2 (fun a b => alen a = blen b) data bs).
Proof.
  revert bs; induction data as [|a data IH]; intros [|b bs]; cbn; intros Hl; try discriminate.
  - split; auto.
  - destruct (Nat.eqb_spec (alen a) (blen b)) as [E|E].
    + rewrite IH by lia. split; intros H; [constructor; auto|now inversion H].
    + split; [discriminate|]. intros H. inversion H. contradiction.
Qed.

Lemma check_cell_data_ok {F} bs (cd : dict (list (arr F))) :
  check_cell_data bs cd = Ok tt <->
  forall name arrays, In (name, arrays) cd -> Forall2 (fun a b => alen a = blen b) arrays bs.
Proof.
  induction cd as [|[k a] cd IH]; cbn; [split; auto; tauto|].
  destruct (Nat.eqb_spec (length a) (length bs)) as [E|E].
  - destruct (check_lengths a bs) as [[]|e] eqn:G; cbn.
    + apply check_lengths_ok in G; auto. rewrite IH.
      split; intros H name b; [intros [Heq|Hin]|]; eauto. congruence.
    + split; [discriminate|]. intros H. exfalso.
      assert (Err e = Ok tt) as X; [|discriminate]. rewrite <- G. apply check_lengths_ok; eauto.
  - split; [discriminate|]. intros H. exfalso. apply E. exact (Forall2_length _ _ _ (H k a (or_introl eq_refl))).
Qed.

Lemma Forall2_blocks {F} (arrays : list (arr F)) (cs : list (string * list cell)) :
  Forall2 (fun a b => alen a = blen b) arrays (map (fun c => Block (fst c) (snd c)) cs) <->
  Forall2 (fun a c => alen a = length (snd c)) arrays cs.
Proof.
  revert arrays; induction cs as [|c cs IH]; intros arrays; cbn.
  - split; intros H; inversion H; constructor.
  - split; intros H; inversion H; subst; constructor; auto; now apply IH.
Qed.

Lemma mk_mesh_ok {F} (pts : list F) cs pd cd ps csets m :
  mk_mesh pts cs pd cd ps csets = Ok m <->
  consistent pts cs pd cd /\
  m = Mesh pts (map (fun c => Block (fst c) (snd c)) cs) pd cd ps csets.
Proof.
  unfold mk_mesh, consistent.
  destruct (make_blocks cs) as [bs|e] eqn:E1; cbn.
  - apply make_blocks_ok in E1. destruct E1 as [H1 ->].
    destruct (check_point_data (length pts) pd) as [[]|e] eqn:E2; cbn.
    + rewrite check_point_data_ok in E2.
      destruct (check_cell_data _ cd) as [[]|e] eqn:E3; cbn.
      * rewrite check_cell_data_ok in E3.
        split; [intros H; injection H as <-|intros [_ ->]; auto].
        repeat split; auto. intros name arrays Hin. apply Forall2_blocks; eauto.
      * split; [discriminate|]. intros [[_ [_ H]] _]. exfalso.
        assert (Err e = Ok tt) as X; [|discriminate]. rewrite <- E3.
        apply check_cell_data_ok. intros name arrays Hin. apply Forall2_blocks; eauto.
    + split; [discriminate|]. intros [[_ [H _]] _]. exfalso.
      assert (Err e = Ok tt) as X; [|discriminate]. rewrite <- E2.
      now apply check_point_data_ok.
  - split; [discriminate|]. intros [[H _] _]. exfalso.
    assert (Err e = Ok (map (fun c => Block (fst c) (snd c)) cs)) as X; [|discriminate].
    rewrite <- E1. apply make_blocks_ok. split; auto.
Qed.

(** ** grouping by key: the common core of cells_dict and cell_data_dict *)
Lemma dget_add_to {A} k (x : A) d k' :
  dget k' (add_to k x d) =
  if String.eqb k' k then Some (match dget k d with Some l => l | None => [] end ++ [x])
  else dget k' d.
Proof.
  unfold add_to. destruct (dget k d) eqn:E; rewrite ?dget_dset; destruct (String.eqb k' k); auto.
Qed.

Lemma dkeys_add_to {A} k (x : A) d :
  dkeys (add_to k x d) = if smem k (dkeys d) then dkeys d else dkeys d ++ [k].
Proof.
  unfold add_to. destruct (dget k d) eqn:E.
  - rewrite dkeys_dset. unfold dmem. rewrite E. apply dget_Some_key, smem_In in E. now rewrite E.
  - assert (Hk := E). apply dget_None, smem_false in Hk. rewrite Hk.
    rewrite dkeys_dset. unfold dmem. rewrite dget_dset_same. rewrite dkeys_dset.
    unfold dmem. now rewrite E.
Qed.

Lemma dget_group {A B} (key : B -> string) (val : B -> A) l d t :
  dget t (fold_left (fun acc b => add_to (key b) (val b) acc) l d) =
  match map val (filter (fun b => String.eqb (key b) t) l), dget t d with
  | [], o => o
  | vs, Some l0 => Some (l0 ++ vs)
  | vs, None => Some vs
  end.
Proof.
  revert d; induction l as [|b l IH]; intros d; cbn; auto.
  rewrite IH, dget_add_to. rewrite (String.eqb_sym t).
  destruct (String.eqb_spec (key b) t) as [->|Hne]; auto.
  cbn. destruct (dget t d) as [l0|]; destruct (map val _); cbn; rewrite <- ?app_assoc; auto.
Qed.

Lemma filter_filter {A} (f g : A -> bool) l :
  filter f (filter g l) = filter (fun x => g x && f x) l.
Proof.
  induction l as [|x xs IH]; cbn; auto. destruct (g x); cbn; [destruct (f x)|]; rewrite ?IH; auto.
Qed.

Lemma dkeys_group {A B} (key : B -> string) (val : B -> A) l d :
  dkeys (fold_left (fun acc b => add_to (key b) (val b) acc) l d) =
  dkeys d ++ filter (fun k => negb (smem k (dkeys d))) (first_occurrences (map key l)).
Proof.
  revert d; induction l as [|b l IH]; intros d; cbn [fold_left map first_occurrences filter];
    [now rewrite app_nil_r|].
  rewrite IH, dkeys_add_to. destruct (smem (key b) (dkeys d)) eqn:E; cbn [negb].
  - f_equal. rewrite filter_filter. apply filter_ext_in. intros k _.
    destruct (String.eqb_spec k (key b)) as [->|Hne]; cbn; [now rewrite E|reflexivity].
  - rewrite <- app_assoc. cbn [app]. f_equal. f_equal. rewrite filter_filter.
    apply filter_ext_in. intros k _. unfold smem. rewrite existsb_app. cbn.
    rewrite orb_false_r, negb_orb, andb_comm. f_equal.
Qed.

Lemma dget_map_val {A B} (f : A -> B) t (d : dict A) :
  dget t (map (fun kv => (fst kv, f (snd kv))) d) = option_map f (dget t d).
Proof.
  induction d as [|[k v] d IH]; cbn; auto. destruct (String.eqb t k); auto.
Qed.

Lemma dkeys_map_val {A B} (f : A -> B) (d : dict A) :
  dkeys (map (fun kv => (fst kv, f (snd kv))) d) = dkeys d.
Proof. unfold dkeys. rewrite map_map. now apply map_ext. Qed.

Lemma cells_of_concat t bs :
  cells_of t bs = concat (map bdata (filter (is_type t) bs)).
Proof.
  unfold cells_of, all_cells. induction bs as [|b bs IH]; cbn; auto.
  rewrite filter_app, map_app, IH. unfold is_type at 2.
  destruct (String.eqb (btype b) t) eqn:E; cbn.
  - f_equal. induction (bdata b) as [|c cs IHc]; cbn; auto. rewrite E. cbn. now rewrite IHc.
  - replace (filter _ (map (pair (btype b)) (bdata b))) with (@nil (string * cell)); auto.
    induction (bdata b) as [|c cs IHc]; cbn; auto. now rewrite E.
Qed.

Lemma filter_nil_iff {A} (f : A -> bool) l : filter f l = [] <-> existsb f l = false.
Proof.
  induction l as [|x xs IH]; cbn; [tauto|]. destruct (f x); cbn; [split; discriminate|auto].
Qed.

Lemma existsb_type t bs : existsb (is_type t) bs = true <-> In t (map btype bs).
Proof.
  rewrite existsb_exists, in_map_iff. split; intros [b [H1 H2]]; exists b.
  - apply String.eqb_eq in H2. auto.
  - split; auto. now apply String.eqb_eq.
Qed.

(** ** C02 *)
Lemma cells_dict_get t bs :
  (In t (map btype bs) -> dget t (cells_dict bs) = Some (cells_of t bs)) /\
  (~ In t (map btype bs) -> dget t (cells_dict bs) = None).
Proof.
  unfold cells_dict. rewrite dget_map_val, dget_group. cbn. rewrite cells_of_concat.
  fold (is_type t). change (fun b : block => String.eqb (btype b) t) with (is_type t).
  rewrite <- existsb_type. split.
  - intros H. destruct (filter (is_type t) bs) as [|b l] eqn:E; cbn; auto.
    apply filter_nil_iff in E. congruence.
  - intros H. apply not_true_iff_false, filter_nil_iff in H. now rewrite H.
Qed.

Lemma cells_dict_keys bs : dkeys (cells_dict bs) = first_occurrences (map btype bs).
Proof.
  unfold cells_dict. rewrite dkeys_map_val, dkeys_group. cbn.
  induction (first_occurrences (map btype bs)) as [|x xs IH]; cbn; auto. now rewrite IH.
Qed.

Lemma get_cells_type_spec t bs :
  (In t (map btype bs) \/ In t (dkeys num_nodes_per_cell) ->
     get_cells_type bs t = Ok (cells_of t bs)) /\
  (~ In t (map btype bs) -> ~ In t (dkeys num_nodes_per_cell) ->
     get_cells_type bs t = Err KeyError).
Proof.
  unfold get_cells_type. change (fun b : block => String.eqb (btype b) t) with (is_type t).
  rewrite cells_of_concat. rewrite <- existsb_type.
  destruct (existsb (is_type t) bs) eqn:E; cbn [negb]; split; auto.
  - intros H. exfalso. auto.
  - intros [H|H]; [discriminate|]. apply filter_nil_iff in E. rewrite E. cbn [map concat].
    destruct (dget t num_nodes_per_cell) eqn:G; auto. apply dget_None in G. contradiction.
  - intros _ H. apply dget_None in H. now rewrite H.
Qed.

(** position of a cell of block j among the cells of its type *)
Lemma nth_error_app_plus {A} (l1 l2 : list A) k :
  nth_error (l1 ++ l2) (length l1 + k) = nth_error l2 k.
Proof. rewrite nth_error_app2 by lia. f_equal. lia. Qed.

Section Positions.
Context {A : Type}.
Variables (key : A -> string) (t : string).
Notation ty := (fun a => String.eqb (key a) t).

Lemma nth_error_group {B} (f : A -> list B) l j a k x :
  nth_error l j = Some a -> key a = t -> nth_error (f a) k = Some x ->
  nth_error (concat (map f (filter ty l)))
    (sum_nat (map (fun a => length (f a)) (filter ty (firstn j l))) + k) = Some x.
Proof.
  revert j; induction l as [|b l IH]; intros [|j]; cbn; try discriminate.
  - intros H Ht Hk. injection H as ->. rewrite Ht, String.eqb_refl. cbn.
    rewrite nth_error_app1; auto. apply nth_error_Some. congruence.
  - intros H Ht Hk. destruct (String.eqb (key b) t); cbn; [|now apply IH].
    rewrite <- Nat.add_assoc, nth_error_app_plus. now apply IH.
Qed.
End Positions.

Lemma cells_of_position bs j b k c :
  nth_error bs j = Some b -> nth_error (bdata b) k = Some c ->
  nth_error (cells_of (btype b) bs) (type_offset (btype b) bs j + k) = Some c.
Proof.
  intros Hj Hk. rewrite cells_of_concat. unfold type_offset, is_type, blen.
  eapply nth_error_group with (f := bdata) (key := btype); eauto.
Qed.

(** ** C03 *)
Lemma Forall2_combine {A B} (R : A -> B -> Prop) l1 l2 :
  Forall2 R l1 l2 -> Forall (fun p => R (fst p) (snd p)) (combine l1 l2).
Proof. induction 1; cbn; constructor; auto. Qed.

Lemma filter_combine_fst {A B} (f : A -> bool) (l1 : list A) (l2 : list B) :
  length l1 = length l2 ->
  map fst (filter (fun p => f (fst p)) (combine l1 l2)) = filter f l1.
Proof.
  revert l2; induction l1 as [|a l1 IH]; intros [|b l2]; cbn; auto; intros H; try discriminate.
  destruct (f a); cbn; rewrite IH; auto.
Qed.

Lemma sum_filter_combine {V} bs (data : list (list V)) t j :
  Forall2 (fun b d => length d = blen b) bs data ->
  sum_nat (map (fun p => length (snd p))
     (filter (fun p => String.eqb (btype (fst p)) t) (firstn j (combine bs data)))) =
  type_offset t bs j.
Proof.
  unfold type_offset, is_type. intros H. revert j; induction H as [|b d bs data Hbd H IH]; intros j.
  - now destruct j.
  - destruct j as [|j]; [reflexivity|]. cbn. destruct (String.eqb (btype b) t); cbn; auto.
Qed.

Lemma combine_swap {A B} (l1 : list A) (l2 : list B) :
  combine l2 l1 = map (fun p => (snd p, fst p)) (combine l1 l2).
Proof. revert l2; induction l1 as [|a l1 IH]; intros [|b l2]; cbn; auto. now rewrite IH. Qed.

Lemma fold_left_map {A B C} (f : C -> B -> C) (g : A -> B) l c :
  fold_left f (map g l) c = fold_left (fun acc a => f acc (g a)) l c.
Proof. revert c; induction l as [|a l IH]; intros c; cbn; auto. Qed.

Lemma cell_data_dict1_get {V} bs (data : list (list V)) t :
  In t (map btype bs) -> length bs = length data ->
  dget t (cell_data_dict1 bs data) =
  Some (concat (map snd (filter (fun p => String.eqb (btype (fst p)) t) (combine bs data)))).
Proof.
  intros Hin Hl. unfold cell_data_dict1. rewrite combine_swap, fold_left_map. cbn [fst snd].
  rewrite dget_map_val.
  rewrite (dget_group (fun p : block * list V => btype (fst p)) snd). cbn [dget option_map].
  destruct (map snd _) eqn:E; auto. exfalso.
  apply map_eq_nil in E.
  assert (X := filter_combine_fst (is_type t) bs data Hl). unfold is_type in X at 1.
  rewrite E in X. cbn in X. symmetry in X. apply filter_nil_iff in X.
  apply existsb_type in Hin. congruence.
Qed.

Lemma cell_data_dict_position {V} bs (data : list (list V)) j b d k v :
  Forall2 (fun b d => length d = blen b) bs data ->
  nth_error bs j = Some b -> nth_error data j = Some d -> nth_error d k = Some v ->
  exists vs, dget (btype b) (cell_data_dict1 bs data) = Some vs /\
    length vs = length (cells_of (btype b) bs) /\
    nth_error vs (type_offset (btype b) bs j + k) = Some v.
Proof.
  intros H Hb Hd Hk. assert (Hl : length bs = length data) by (eapply Forall2_length; eauto).
  eexists. split; [apply cell_data_dict1_get; auto; apply in_map; eapply nth_error_In; eauto|].
  split.
  - rewrite concat_length_sum, cells_of_concat, concat_length_sum, !map_map.
    clear - H. unfold is_type. induction H as [|b' d' bs data Hbd H IH]; cbn; auto.
    destruct (String.eqb (btype b') (btype b)); cbn; auto.
  - rewrite <- sum_filter_combine with (data := data) by auto.
    eapply nth_error_group with (f := snd) (key := fun p : block * list V => btype (fst p));
      [apply nth_error_combine; eauto|reflexivity|exact Hk].
Qed.

Lemma get_cell_data_agrees {V} bs (cd : dict (list (list V))) name data t :
  dget name cd = Some data -> length data = length bs -> In t (map btype bs) ->
  exists vs, get_cell_data bs cd name t = Ok vs /\ dget t (cell_data_dict1 bs data) = Some vs.
Proof.
  intros H Hl Hin. rewrite (cell_data_dict1_get bs data t) by auto.
  unfold get_cell_data. rewrite H. cbn.
  destruct (map snd (filter _ (combine bs data))) eqn:E.
  - exfalso. apply map_eq_nil in E.
    assert (X := filter_combine_fst (is_type t) bs data (eq_sym Hl)). unfold is_type in X at 1.
    rewrite E in X. cbn in X. symmetry in X. apply filter_nil_iff in X.
    apply existsb_type in Hin. congruence.
  - eauto.
Qed.

(** ** C04 *)
Section CellSets.
(** the members of the blocks of one type, shifted: what the loop accumulates *)
Fixpoint shifted (t : string) (off : nat) (mbs : list (option (list nat) * block)) : list (list nat) :=
  match mbs with
  | [] => []
  | (ms, b) :: rest =>
      if String.eqb (btype b) t
      then match ms with
           | None => shifted t off rest
           | Some l => map (fun m => m + off) l :: shifted t (off + blen b) rest
           end
      else shifted t off rest
  end.

Lemma cell_sets_fold t mbs offs sd :
  dget t (snd (fold_left cell_sets_step mbs (offs, sd))) =
  match shifted t (match dget t offs with Some o => o | None => 0 end) mbs with
  | [] => dget t sd
  | l => Some (match dget t sd with Some l0 => l0 | None => [] end ++ l)
  end.
Proof.
  revert offs sd; induction mbs as [|[ms b] mbs IH]; intros offs sd; cbn [fold_left shifted]; auto.
  unfold cell_sets_step at 2. destruct ms as [l|].
  - destruct (dget (btype b) offs) as [o|] eqn:Eo; rewrite IH;
      (destruct (dget (btype b) sd) as [l0|] eqn:Es; rewrite !dget_dset);
      rewrite (String.eqb_sym t (btype b));
      (destruct (String.eqb_spec (btype b) t) as [Heq|Hne]; [subst t; rewrite ?Eo, ?Es|auto]);
      (destruct (shifted _ _ mbs) eqn:G; cbn [Nat.add]; rewrite <- ?app_assoc; cbn; auto).
  - rewrite IH. destruct (String.eqb (btype b) t); auto.
Qed.

Lemma dget_drop_empty t d : NoDup (dkeys d) ->
  dget t (drop_empty_concat d) =
  match dget t d with
  | Some l => if Nat.eqb (length (concat l)) 0 then None else Some (concat l)
  | None => None
  end.
Proof.
  unfold drop_empty_concat. rewrite dget_map_val.
  induction d as [|[k l] d IH]; intros Hnd; [reflexivity|].
  inversion Hnd as [|? ? Hni Hnd']; subst. specialize (IH Hnd').
  cbn [filter snd]. rewrite <- concat_length_sum.
  destruct (Nat.eqb (length (concat l)) 0) eqn:E; cbn [negb].
  - rewrite IH. cbn [dget]. destruct (String.eqb_spec t k) as [->|Hne]; auto.
    rewrite (proj2 (dget_None k d) Hni). now rewrite E.
  - cbn [dget]. destruct (String.eqb_spec t k) as [->|Hne]; cbn; [now rewrite E|auto].
Qed.

Lemma cell_sets_NoDup mbs offs sd :
  NoDup (dkeys sd) -> NoDup (dkeys (snd (fold_left cell_sets_step mbs (offs, sd)))).
Proof.
  revert offs sd; induction mbs as [|[ms b] mbs IH]; intros offs sd H; cbn [fold_left]; auto.
  unfold cell_sets_step at 2. destruct ms as [l|]; auto.
  destruct (dget (btype b) offs); destruct (dget (btype b) sd); apply IH; now apply NoDup_dset.
Qed.

Lemma cell_sets_dict1_get t bs members :
  dget t (cell_sets_dict1 bs members) =
  match concat (shifted t 0 (combine members bs)) with
  | [] => None
  | l => Some l
  end.
Proof.
  unfold cell_sets_dict1. rewrite dget_drop_empty by (apply cell_sets_NoDup; constructor).
  rewrite cell_sets_fold. cbn [dget].
  destruct (shifted t 0 (combine members bs)) as [|x l] eqn:E; cbn [app]; auto.
  destruct (concat (x :: l)) eqn:G; reflexivity.
Qed.

(** no block of type t lacks an entry *)
Lemma shifted_In t off mbs i :
  (forall ms b, In (ms, b) mbs -> btype b = t -> ms <> None) ->
  In i (concat (shifted t off mbs)) <->
  exists j ms b m, nth_error mbs j = Some (Some ms, b) /\ btype b = t /\ In m ms /\
    i = off + type_offset t (map snd mbs) j + m.
Proof.
  unfold type_offset. revert off; induction mbs as [|[ms b] mbs IH]; intros off H.
  - cbn. split; [tauto|]. intros (j & ms & b & m & Hj & _). destruct j; discriminate.
  - cbn [shifted]. assert (IH' := fun off => IH off (fun ms b Hin => H ms b (or_intror Hin))).
    destruct (String.eqb_spec (btype b) t) as [Heq|Hne].
    + destruct ms as [l|]; [|exfalso; eapply H; [left; reflexivity|auto|auto]].
      cbn [concat]. rewrite in_app_iff, IH'. rewrite in_map_iff. split.
      * intros [[m [<- Hm]]|(j & ms & b' & m & Hj & Hb & Hm & ->)].
        -- exists 0, l, b, m. cbn. repeat split; auto. lia.
        -- exists (S j), ms, b', m. cbn. unfold is_type at 2. rewrite Heq, String.eqb_refl. cbn.
           repeat split; auto. lia.
      * intros (j & ms & b' & m & Hj & Hb & Hm & ->). destruct j as [|j].
        -- cbn in Hj. injection Hj as <- <-. left. exists m. cbn. split; [lia|auto].
        -- right. exists j, ms, b', m. cbn. unfold is_type at 1. rewrite Heq, String.eqb_refl. cbn.
           repeat split; auto. lia.
    + rewrite IH'. split.
      * intros (j & ms' & b' & m & Hj & Hb & Hm & ->). exists (S j), ms', b', m. cbn.
        unfold is_type at 2. rewrite (proj2 (String.eqb_neq _ _) Hne). repeat split; auto.
      * intros (j & ms' & b' & m & Hj & Hb & Hm & ->). destruct j as [|j].
        -- cbn in Hj. injection Hj as -> ->. contradiction.
        -- exists j, ms', b', m. cbn. unfold is_type at 1.
           rewrite (proj2 (String.eqb_neq _ _) Hne). repeat split; auto.
Qed.

Lemma cell_sets_dict1_members bs members t i :
  length members = length bs ->
  (forall j b, nth_error bs j = Some b -> btype b = t -> nth_error members j <> Some None) ->
  (exists l, dget t (cell_sets_dict1 bs members) = Some l /\ In i l) <->
  (exists j b m, nth_error bs j = Some b /\ btype b = t /\ member members j m /\
     i = type_offset t bs j + m).
Proof.
  intros Hl Hn. rewrite cell_sets_dict1_get.
  assert (X : forall ms b, In (ms, b) (combine members bs) -> btype b = t -> ms <> None).
  { intros ms b Hin Hb ->. apply In_nth_error in Hin. destruct Hin as [j Hj].
    apply nth_error_combine in Hj. destruct Hj. eapply Hn; eauto. }
  assert (Y := shifted_In t 0 (combine members bs) i X).
  rewrite map_snd_combine in Y by auto. cbn [Nat.add] in Y.
  transitivity (In i (concat (shifted t 0 (combine members bs)))).
  - destruct (concat _) as [|x l]; split.
    + intros [l [H _]]. discriminate.
    + intros [].
    + intros [l' [H Hin]]. now injection H as <-.
    + eauto.
  - rewrite Y. unfold member. split.
    + intros (j & ms & b & m & Hj & Hb & Hm & ->). apply nth_error_combine in Hj. destruct Hj.
      exists j, b, m. repeat split; eauto.
    + intros (j & b & m & Hj & Hb & (ms & H1 & H2) & ->).
      exists j, ms, b, m. repeat split; auto. apply nth_error_combine; auto.
Qed.
End CellSets.
