(** Maximal runs of equal neighbours in a list, and numpy-style indexing. *)
From Verif.Lib Require Import Base Facts.

(** Python/numpy indexing [l[i]]: negative indices count from the end; None = IndexError. *)
Definition znth {A} (l : list A) (i : Z) : option A :=
  if (0 <=? i)%Z then nth_error l (Z.to_nat i)
  else if (- Z.of_nat (length l) <=? i)%Z then nth_error l (Z.to_nat (Z.of_nat (length l) + i))
  else None.

(** [l[idx]] for an integer index array. *)
Definition gather {A} (l : list A) (idx : list Z) : result (list A) :=
  mapM (fun i => of_option IndexError (znth l i)) idx.

Lemma znth_nat {A} (l : list A) n : znth l (Z.of_nat n) = nth_error l n.
Proof.
  unfold znth. destruct (Z.leb_spec 0 (Z.of_nat n)); [|lia]. now rewrite Nat2Z.id.
Qed.

Section Runs.
Context {A : Type} (eqb : A -> A -> bool).
Hypothesis eqb_spec : forall x y, reflect (x = y) (eqb x y).

(** [np.where(a[:-1] != a[1:])[0] + 1] *)
Definition breaks (l : list A) : list nat :=
  map S (where_ (fun xy => negb (eqb (fst xy) (snd xy))) (combine l (tl l))).

(** [zip([0, *breaks], [*breaks, len])] *)
Definition bounds (l : list A) : list (nat * nat) :=
  combine (0 :: breaks l) (breaks l ++ [length l]).

Fixpoint runs (l : list A) : list (A * nat) :=
  match l with
  | [] => []
  | x :: xs => match runs xs with
               | (y, n) :: r => if eqb x y then (y, S n) :: r else (x, 1) :: (y, n) :: r
               | [] => [(x, 1)]
               end
  end.

Fixpoint spans (s : nat) (r : list (A * nat)) : list (nat * nat) :=
  match r with
  | [] => []
  | (_, n) :: r' => (s, s + n) :: spans (s + n) r'
  end.

Lemma where_from_shift {B} (f : B -> bool) i l : where_from f (S i) l = map S (where_from f i l).
Proof.
  revert i; induction l as [|x xs IH]; intros i; cbn; auto. destruct (f x); cbn; now rewrite IH.
Qed.

Lemma breaks_cons2 x y l :
  breaks (x :: y :: l) = (if eqb x y then [] else [1]) ++ map S (breaks (y :: l)).
Proof.
  unfold breaks, where_. cbn [tl combine where_from fst snd]. rewrite where_from_shift.
  destruct (eqb x y); reflexivity.
Qed.

Lemma spans_shift s r : spans (S s) r = map (fun p => (S (fst p), S (snd p))) (spans s r).
Proof.
  revert s; induction r as [|[a n] r IH]; intros s; cbn; auto. now rewrite <- IH.
Qed.

Lemma runs_cons_nonempty x l : runs (x :: l) <> [].
Proof. cbn. destruct (runs l) as [|[y n] r]; [discriminate|]. destruct (eqb x y); discriminate. Qed.

Lemma runs_cons_head x l : exists n r, runs (x :: l) = (x, S n) :: r.
Proof.
  cbn. destruct (runs l) as [|[y n] r].
  - now exists 0, [].
  - destruct (eqb_spec x y) as [->|Hne]; eauto.
Qed.

Lemma combine_map_both {B C D E} (f : B -> D) (g : C -> E) l1 l2 :
  combine (map f l1) (map g l2) = map (fun p => (f (fst p), g (snd p))) (combine l1 l2).
Proof.
  revert l2; induction l1 as [|x xs IH]; intros [|y ys]; cbn; auto. now rewrite IH.
Qed.

Lemma combine_cons2 {B C} (x : B) (y : C) l1 l2 : combine (x :: l1) (y :: l2) = (x, y) :: combine l1 l2.
Proof. reflexivity. Qed.

Lemma bounds_cons2 x y l :
  bounds (x :: y :: l) =
  if eqb x y then match bounds (y :: l) with
                  | [] => []
                  | (_, e) :: b => (0, S e) :: map (fun p => (S (fst p), S (snd p))) b
                  end
  else (0, 1) :: map (fun p => (S (fst p), S (snd p))) (bounds (y :: l)).
Proof.
  unfold bounds. rewrite breaks_cons2.
  assert (E : map S (breaks (y :: l)) ++ [length (x :: y :: l)] = map S (breaks (y :: l) ++ [length (y :: l)]))
    by (rewrite map_app; reflexivity).
  destruct (eqb x y); cbn [app].
  - rewrite E. destruct (breaks (y :: l)) as [|b bs]; [reflexivity|].
    rewrite <- app_comm_cons. cbn [map]. rewrite !combine_cons2.
    change (S b :: map S bs) with (map S (b :: bs)). rewrite combine_map_both. reflexivity.
  - rewrite combine_cons2. f_equal. rewrite E. change (1 :: map S (breaks (y :: l))) with (map S (0 :: breaks (y :: l))).
    rewrite combine_map_both. reflexivity.
Qed.

Lemma bounds_spans l : l <> [] -> bounds l = spans 0 (runs l).
Proof.
  induction l as [|x l IH]; [congruence|]. intros _. destruct l as [|y l].
  - reflexivity.
  - rewrite bounds_cons2, IH by discriminate.
    change (runs (x :: y :: l)) with
      (match runs (y :: l) with
       | (y0, n) :: r => if eqb x y0 then (y0, S n) :: r else (x, 1) :: (y0, n) :: r
       | [] => [(x, 1)] end).
    destruct (runs_cons_head y l) as (n & r & E). rewrite E.
    destruct (eqb x y).
    + cbn [spans]. f_equal. change (0 + S (S n)) with (S (0 + S n)). now rewrite spans_shift.
    + cbn [spans]. f_equal. change (0 + 1) with 1. cbn [map fst snd]. f_equal.
      change (1 + S n) with (S (0 + S n)). now rewrite spans_shift.
Qed.

(** The list described by a run-length encoding. *)
Definition expand (r : list (A * nat)) : list A := flat_map (fun an => repeat (fst an) (snd an)) r.

Lemma expand_runs l : expand (runs l) = l.
Proof.
  induction l as [|x l IH]; [reflexivity|].
  cbn [runs]. destruct (runs l) as [|[y n] r].
  - cbn in *. now rewrite <- IH.
  - destruct (eqb_spec x y) as [->|Hne]; cbn in *; now rewrite IH.
Qed.

Lemma runs_pos l a n : In (a, n) (runs l) -> 0 < n.
Proof.
  induction l as [|x l IH]; cbn; [tauto|]. destruct (runs l) as [|[y k] r].
  - intros [H|[]]. injection H as <- <-. lia.
  - destruct (eqb x y).
    + intros [H|H]; [injection H as <- <-; lia|]. apply IH. now right.
    + intros [H|H]; [injection H as <- <-; lia|]. now apply IH.
Qed.

(** Neighbouring runs differ. *)
Fixpoint alternating (r : list (A * nat)) : Prop :=
  match r with
  | [] => True
  | (a, _) :: r' => match r' with (b, _) :: _ => a <> b | [] => True end /\ alternating r'
  end.

Lemma alternating_cons a n b m r : alternating ((a, n) :: (b, m) :: r) <-> a <> b /\ alternating ((b, m) :: r).
Proof. reflexivity. Qed.

Lemma runs_alternating l : alternating (runs l).
Proof.
  induction l as [|x l IH]; [exact I|]. cbn [runs]. destruct (runs l) as [|[y n] r].
  - cbn. auto.
  - destruct (eqb_spec x y) as [->|Hne].
    + exact IH.
    + rewrite alternating_cons. auto.
Qed.

Lemma runs_total l : sum_nat (map snd (runs l)) = length l.
Proof.
  induction l as [|x l IH]; [reflexivity|]. cbn [runs length]. destruct (runs l) as [|[y n] r].
  - cbn in *. lia.
  - destruct (eqb x y); cbn in *; lia.
Qed.

(** Slicing a parallel list along the runs is splitting it into the run lengths. *)
Lemma slices_spans {B} (d : list B) r s :
  map (fun p => slice (fst p) (snd p) d) (spans s r) = split_lens (map snd r) (skipn s d).
Proof.
  revert s; induction r as [|[a n] r IH]; intros s; cbn; auto. f_equal.
  - unfold slice. f_equal. lia.
  - rewrite IH. f_equal. clear. revert d; induction s as [|s IH]; intros d; cbn; auto.
    destruct d; cbn; auto. now rewrite skipn_nil.
Qed.
End Runs.
