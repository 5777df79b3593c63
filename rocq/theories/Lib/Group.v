(** Loops that collect items in groups of neighbours with the same key:
    [if groups and groups[-1][0] == key: groups[-1][1].append(x)]
    [else: groups.append((key, [x]))] *)
From Verif.Lib Require Import Base.

Section Group.
Context {K V : Type} (eqb : K -> K -> bool).
Hypothesis eqb_ok : forall a b, reflect (a = b) (eqb a b).

(** One step; both lists are kept in reverse order. *)
Definition add_run (acc : list (K * list V)) (kv : K * V) : list (K * list V) :=
  match acc with
  | (k, vs) :: acc' => if eqb (fst kv) k then (k, snd kv :: vs) :: acc' else (fst kv, [snd kv]) :: acc
  | [] => [(fst kv, [snd kv])]
  end.
Definition in_order (acc : list (K * list V)) : list (K * list V) :=
  rev (map (fun g => (fst g, rev (snd g))) acc).
Definition run_groups (l : list (K * V)) : list (K * list V) := in_order (fold_left add_run l []).

(** The same by recursion on the list. *)
Fixpoint group_adj (l : list (K * V)) : list (K * list V) :=
  match l with
  | [] => []
  | (k, v) :: l' =>
      match group_adj l' with
      | (k', vs) :: r => if eqb k k' then (k, v :: vs) :: r else (k, [v]) :: (k', vs) :: r
      | [] => [(k, [v])]
      end
  end.

Lemma group_adj_head k v l : exists vs r, group_adj ((k, v) :: l) = (k, v :: vs) :: r.
Proof.
  cbn [group_adj]. destruct (group_adj l) as [|[k' vs] r]; eauto.
  destruct (eqb k k'); eauto.
Qed.

Lemma group_adj_break k vs k' v l : vs <> [] -> k <> k' ->
  group_adj (map (pair k) vs ++ (k', v) :: l) = (k, vs) :: group_adj ((k', v) :: l).
Proof.
  intros Hne Hk. induction vs as [|x vs IH]; [congruence|]. destruct vs as [|y vs].
  - cbn [map app]. destruct (group_adj_head k' v l) as (ws & r & E). cbn [group_adj] in *. rewrite E.
    destruct (eqb_ok k k'); [contradiction|reflexivity].
  - specialize (IH ltac:(discriminate)). change (map (pair k) (x :: y :: vs) ++ (k', v) :: l)
      with ((k, x) :: (map (pair k) (y :: vs) ++ (k', v) :: l)).
    cbn [group_adj] in *. cbn [map app] in *. cbn [group_adj] in *. rewrite IH.
    destruct (eqb_ok k k); [reflexivity|congruence].
Qed.

Lemma group_adj_one k vs : vs <> [] -> group_adj (map (pair k) vs) = [(k, vs)].
Proof.
  intros Hne. induction vs as [|x vs IH]; [congruence|]. destruct vs as [|y vs]; [reflexivity|].
  specialize (IH ltac:(discriminate)). change (map (pair k) (x :: y :: vs)) with ((k, x) :: map (pair k) (y :: vs)).
  cbn [group_adj] in *. rewrite IH. destruct (eqb_ok k k); [reflexivity|congruence].
Qed.

Lemma fold_add_run l k vs acc : vs <> [] ->
  in_order (fold_left add_run l ((k, vs) :: acc)) = in_order acc ++ group_adj (map (pair k) (rev vs) ++ l).
Proof.
  revert k vs acc; induction l as [|[k' v] l IH]; intros k vs acc Hne; cbn [fold_left].
  - rewrite app_nil_r, group_adj_one by (intros E; apply Hne; now rewrite <- (rev_involutive vs), E). reflexivity.
  - cbn [add_run fst snd]. destruct (eqb_ok k' k) as [->|Hk].
    + rewrite IH by discriminate. cbn [rev]. rewrite map_app, <- app_assoc. reflexivity.
    + rewrite IH by discriminate. rewrite group_adj_break; auto.
      * unfold in_order at 1. cbn [map rev]. rewrite <- app_assoc. reflexivity.
      * intros E; apply Hne; now rewrite <- (rev_involutive vs), E.
Qed.

Lemma run_groups_adj l : run_groups l = group_adj l.
Proof.
  unfold run_groups. destruct l as [|[k v] l]; [reflexivity|]. cbn [fold_left add_run fst snd].
  rewrite fold_add_run by discriminate. reflexivity.
Qed.

Lemma group_adj_items l : flat_map (fun g => map (pair (fst g)) (snd g)) (group_adj l) = l.
Proof.
  induction l as [|[k v] l IH]; [reflexivity|]. cbn [group_adj].
  destruct (group_adj l) as [|[k' vs] r]; cbn in *; [now rewrite <- IH|].
  destruct (eqb_ok k k') as [->|]; cbn; now rewrite IH.
Qed.
Lemma group_adj_nonempty l : Forall (fun g => snd g <> []) (group_adj l).
Proof.
  induction l as [|[k v] l IH]; [constructor|]. cbn [group_adj].
  destruct (group_adj l) as [|[k' vs] r]; [repeat constructor; discriminate|].
  inversion IH; subst. destruct (eqb k k'); repeat constructor; auto; discriminate.
Qed.
End Group.
