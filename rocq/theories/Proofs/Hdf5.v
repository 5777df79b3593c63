(** Facts about Model/Hdf5.v: the order of names, and creating members *)
From Coq Require Import Sorting.Permutation Sorting.Sorted.
From Verif.Lib Require Import Base Facts Text TextFacts.
From Verif.Model Require Import Numpy Hdf5.
From Verif.Proofs Require Import Xdmf.

(** ** The order of strings *)
Lemma ascii_compare_spec a b : Ascii.compare a b = N.compare (N_of_ascii a) (N_of_ascii b).
Proof. reflexivity. Qed.
Lemma string_compare_refl s : String.compare s s = Eq.
Proof.
  induction s as [|a s IH]; cbn; auto. rewrite ascii_compare_spec, N.compare_refl. exact IH.
Qed.
Lemma leb_refl s : String.leb s s = true.
Proof. unfold String.leb. now rewrite string_compare_refl. Qed.
Lemma leb_trans : forall x y z, String.leb x y = true -> String.leb y z = true -> String.leb x z = true.
Proof.
  induction x as [|a x IH]; intros [|b y] [|c z]; unfold String.leb; cbn; try discriminate; auto.
  rewrite !ascii_compare_spec.
  destruct (N.compare_spec (N_of_ascii a) (N_of_ascii b)) as [Hab|Hab|Hab];
  destruct (N.compare_spec (N_of_ascii b) (N_of_ascii c)) as [Hbc|Hbc|Hbc]; try discriminate; intros H1 H2;
  destruct (N.compare_spec (N_of_ascii a) (N_of_ascii c)) as [Hac|Hac|Hac]; auto; try lia.
  exact (IH y z H1 H2).
Qed.
Lemma leb_anti x y : String.leb x y = true -> String.leb y x = true -> x = y.
Proof. exact (String.leb_antisym x y). Qed.

Section Sort.
Context {A : Type}.
Implicit Types l : list (string * A).
Definition name_le (x y : string * A) : Prop := String.leb (fst x) (fst y) = true.
Lemma insert_perm x l : Permutation (insert_item x l) (x :: l).
Proof.
  induction l as [|y l IH]; cbn; auto. destruct (String.leb (fst x) (fst y)); auto.
  rewrite IH. apply perm_swap.
Qed.
Lemma sorted_perm l : Permutation (sorted_items l) l.
Proof. induction l as [|x l IH]; cbn; auto. rewrite insert_perm. now constructor. Qed.
Lemma insert_sorted x l : StronglySorted name_le l -> StronglySorted name_le (insert_item x l).
Proof.
  intros H. induction H as [|y l Hs IH Hy]; cbn; [repeat constructor|].
  destruct (String.leb (fst x) (fst y)) eqn:E.
  - constructor; [constructor; auto|]. constructor; [exact E|]. eapply Forall_impl; [|exact Hy].
    intros z Hz. unfold name_le in *. eapply leb_trans; eauto.
  - constructor; auto. eapply Permutation_Forall; [symmetry; apply insert_perm|].
    constructor; auto. unfold name_le. destruct (String.leb_total (fst x) (fst y)); congruence.
Qed.
Lemma sorted_sorted l : StronglySorted name_le (sorted_items l).
Proof. induction l as [|x l IH]; cbn; [constructor|]. now apply insert_sorted. Qed.
Lemma sorted_unique l1 : forall l2, StronglySorted name_le l1 -> StronglySorted name_le l2 -> Permutation l1 l2 -> NoDup (dkeys l2) -> l1 = l2.
Proof.
  induction l1 as [|x l1 IH]; intros l2 H1 H2 P N.
  - apply Permutation_nil in P. now subst.
  - destruct l2 as [|y l2]; [apply Permutation_sym, Permutation_nil in P; discriminate|].
    inversion H1 as [|? ? S1 L1]; subst. inversion H2 as [|? ? S2 L2]; subst.
    assert (E : x = y).
    { assert (Hx : In x (y :: l2)) by (eapply Permutation_in; [exact P|now left]).
      assert (Hy : In y (x :: l1)) by (eapply Permutation_in; [symmetry; exact P|now left]).
      destruct Hx as [->|Hx]; auto. destruct Hy as [->|Hy]; auto. exfalso.
      rewrite Forall_forall in L1, L2. assert (K : fst x = fst y) by (apply leb_anti; [now apply L1|now apply L2]).
      inversion N as [|? ? Hn _]; subst. apply Hn. rewrite <- K. now apply in_map. }
    subst y. f_equal. apply IH; auto.
    + now apply Permutation_cons_inv in P.
    + now inversion N.
Qed.
Lemma sorted_eq l1 l2 : StronglySorted name_le l2 -> Permutation l1 l2 -> NoDup (dkeys l2) -> sorted_items l1 = l2.
Proof. intros S P N. apply sorted_unique; auto using sorted_sorted. now rewrite sorted_perm. Qed.
Lemma sorted_keys_nodup l : NoDup (dkeys l) -> NoDup (dkeys (sorted_items l)).
Proof. intros H. eapply Permutation_NoDup; [|exact H]. unfold dkeys. apply Permutation_map. symmetry. apply sorted_perm. Qed.
Lemma sorted_length l : length (sorted_items l) = length l.
Proof. apply Permutation_length, sorted_perm. Qed.
End Sort.
Lemma sorted_map {A B} (f : A -> B) l : sorted_items (map (fun kv => (fst kv, f (snd kv))) l) = map (fun kv => (fst kv, f (snd kv))) (sorted_items l).
Proof.
  induction l as [|x l IH]; auto. unfold sorted_items in *. cbn [map fold_right]. rewrite IH. generalize (fold_right insert_item [] l). intros s.
  induction s as [|y s IHs]; cbn; auto. destruct (String.leb (fst x) (fst y)); cbn; auto. now rewrite IHs.
Qed.
Lemma sorted_dget {A} k (l : list (string * A)) : NoDup (dkeys l) -> dget k (sorted_items l) = dget k l.
Proof.
  intros N. destruct (dget k l) as [v|] eqn:E.
  - apply In_dget; [now apply sorted_keys_nodup|]. apply dget_In in E. eapply Permutation_in; [symmetry; apply sorted_perm|auto].
  - apply dget_None. apply dget_None in E. intros H. apply E. unfold dkeys in *.
    eapply Permutation_in; [|exact H]. apply Permutation_map, sorted_perm.
Qed.

(** ** Creating members *)
Definition plain (s : string) : Prop := char_in "/" s = false.
Lemma split_plain s : plain s -> split_char "/" s = [s].
Proof. unfold plain. intros H. now apply split_char_single. Qed.
Section Create.
Context {F : Type}.
Lemma attr_str_here n s a (v : hval F) : attr_str (Dataset ((n, AStr s) :: a) v) n = Ok s.
Proof. unfold attr_str. cbn [h5_attrs dget]. now rewrite String.eqb_refl. Qed.
Lemma attr_int_here n z a (v : hval F) : attr_int (Dataset ((n, AInt z) :: a) v) n = Ok z.
Proof. unfold attr_int. cbn [h5_attrs dget]. now rewrite String.eqb_refl. Qed.
Lemma get_here a n x (its : list (string * h5 F)) : h5_get (Group a ((n, x) :: its)) n = Ok x.
Proof. unfold h5_get. cbn [dget]. now rewrite String.eqb_refl. Qed.
Lemma get_next a n k x (its : list (string * h5 F)) : n <> k -> h5_get (Group a ((k, x) :: its)) n = h5_get (Group a its) n.
Proof. intros H. unfold h5_get. cbn [dget]. destruct (String.eqb_spec n k); [contradiction|reflexivity]. Qed.
Lemma mem_here a n x (its : list (string * h5 F)) : h5_mem (Group a ((n, x) :: its)) n = true.
Proof. unfold h5_mem, dmem. cbn [dget]. now rewrite String.eqb_refl. Qed.
Lemma create_new n x a (its : list (string * h5 F)) : plain n -> ~ In n (dkeys its) ->
  h5_create n x (Group a its) = Ok (Group a (its ++ [(n, x)])).
Proof.
  intros P N. unfold h5_create. rewrite split_plain by auto. cbn [edit]. rewrite (proj2 (dget_None _ _) N). cbn [bind].
  now rewrite dset_new.
Qed.
Lemma create_old n x a (its : list (string * h5 F)) : plain n -> In n (dkeys its) -> h5_create n x (Group a its) = Err ValueError.
Proof.
  intros P N. unfold h5_create. rewrite split_plain by auto. cbn [edit]. destruct (dget n its) eqn:E; [reflexivity|].
  apply dget_None in E. contradiction.
Qed.
Lemma create_all l : forall a (its : list (string * h5 F)), Forall plain (dkeys l) -> NoDup (dkeys l) ->
  (forall n, In n (dkeys l) -> ~ In n (dkeys its)) -> h5_create_all l (Group a its) = Ok (Group a (its ++ l)).
Proof.
  induction l as [|[n x] l IH]; intros a its P N D; cbn [h5_create_all]; [now rewrite app_nil_r|].
  cbn in P, N. inversion P as [|? ? Pn Pl]; subst. inversion N as [|? ? Nn Nl]; subst.
  rewrite create_new; [|auto|apply D; now left]. cbn [bind]. rewrite IH; auto.
  - now rewrite <- app_assoc.
  - intros k Hk Hi. unfold dkeys in Hi. rewrite map_app, in_app_iff in Hi. destruct Hi as [Hi|[<-|[]]].
    + apply (D k); auto. now right.
    + contradiction.
Qed.
End Create.
