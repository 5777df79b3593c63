(** C47: PERMAS. *)
From Coq Require Import List String Permutation Lia.
From Verif.Lib Require Import Base Text Lines LinesFacts.
From Verif.Model Require Import Core Permas.
From Verif.Spec Require Import Core Mdpa Permas.
From Verif.Proofs Require Import Permas.

(** What every mesh becomes: the same points (with a third coordinate), one block per block with the same type and the
    same cells in the same order, the nodes of each cell in the order of the file. *)
Theorem C47_file_order {fl : floats} (v : string) (m : permas_mesh fl) : floats_ok fl ->
  Forall (fun p => length p = 2 \/ length p = 3) (pm_points m) ->
  Forall (permas_block (length (pm_points m))) (pm_cells m) ->
  exists file, write_permas v m = Ok file /\
    read_permas (fl := fl) file = Ok (PermasMesh (map in_space (pm_points m)) (map in_file (pm_cells m))).
Proof. intros. now apply permas_roundtrip. Qed.
Print Assumptions C47_file_order.

(** The nodes of every cell are the same nodes, possibly in another order. *)
Theorem C47_same_nodes t w c : In (t, w) permas_types -> length c = w -> Permutation (file_order t c) c.
Proof.
  intros H L. unfold file_order.
  assert (P : forall o, Permutation o (seq 0 (length c)) -> Permutation (map (fun i => nth i c 0%Z) o) c).
  { intros o Ho. rewrite (Permutation_map (fun i => nth i c 0%Z) Ho). clear.
    assert (E : map (fun i => nth i c 0%Z) (seq 0 (length c)) = c); [|now rewrite E].
    induction c as [|x c IH]; [reflexivity|]. cbn [length seq map nth]. f_equal. rewrite <- seq_shift, map_map. exact IH. }
  assert (Q : forall o n, (forallb (fun i => existsb (Nat.eqb i) o) (seq 0 n) && Nat.eqb (length o) n)%bool = true -> Permutation o (seq 0 n)).
  { intros o n E. apply andb_true_iff in E. destruct E as [E1 E2]. apply Nat.eqb_eq in E2. symmetry. apply NoDup_Permutation_bis.
    - apply seq_NoDup.
    - rewrite seq_length. lia.
    - intros i Hi. rewrite forallb_forall in E1. specialize (E1 i Hi). apply existsb_exists in E1 as (j & Hj & E). apply Nat.eqb_eq in E. now subst. }
  destruct (String.eqb_spec t "triangle6") as [->|N1].
  { apply P, Q. rewrite L. cbn in H. repeat (destruct H as [H|H]; [try discriminate; injection H as <-; vm_compute; reflexivity|]). destruct H. }
  destruct (String.eqb_spec t "tetra10") as [->|N2].
  { apply P, Q. rewrite L. cbn in H. repeat (destruct H as [H|H]; [try discriminate; injection H as <-; vm_compute; reflexivity|]). destruct H. }
  destruct (String.eqb_spec t "quad9") as [->|N3].
  { apply P, Q. rewrite L. cbn in H. repeat (destruct H as [H|H]; [try discriminate; injection H as <-; vm_compute; reflexivity|]). destruct H. }
  reflexivity.
Qed.
Print Assumptions C47_same_nodes.

(** The round trip, for meshes without cells of the three reordered types.  (Missing for the full claim: these types, see
    C47_reordered_refuted.) *)
Theorem C47_roundtrip_partial {fl : floats} (v : string) (m : permas_mesh fl) : floats_ok fl ->
  Forall (fun p => length p = 3) (pm_points m) ->
  Forall (permas_block (length (pm_points m))) (pm_cells m) ->
  Forall (fun b => ~ In (btype b) reordered) (pm_cells m) ->
  exists file, write_permas v m = Ok file /\ read_permas (fl := fl) file = Ok m.
Proof.
  intros Hf Hp Hb Hr. destruct (permas_roundtrip Hf v m) as (file & E & R); auto.
  { eapply Forall_impl; [|exact Hp]. auto. }
  exists file. split; [exact E|]. rewrite R. destruct m as [pts bs]. cbn [pm_points pm_cells] in *. f_equal. f_equal.
  - rewrite <- (map_id pts) at 2. apply map_ext_in. intros p Hin. rewrite Forall_forall in Hp. unfold in_space. now rewrite (Hp p Hin).
  - rewrite <- (map_id bs) at 2. apply map_ext_in. intros b Hin. rewrite Forall_forall in Hr. specialize (Hr b Hin).
    unfold in_file. destruct b as [t rows]. cbn [btype bdata] in *. f_equal. rewrite <- (map_id rows) at 2. apply map_ext. intros c. unfold file_order.
    destruct (String.eqb_spec t "triangle6") as [->|]; [exfalso; apply Hr; cbn; auto|].
    destruct (String.eqb_spec t "tetra10") as [->|]; [exfalso; apply Hr; cbn; auto|].
    destruct (String.eqb_spec t "quad9") as [->|]; [exfalso; apply Hr; cbn; auto|].  reflexivity.
Qed.
Print Assumptions C47_roundtrip_partial.

(** For the three types every cell with distinct nodes comes back with another node order: the reader does not undo what the
    writer does. *)
Theorem C47_reordered_refuted {fl : floats} (v : string) (m : permas_mesh fl) (b : block) (c : cell) : floats_ok fl ->
  Forall (fun p => length p = 2 \/ length p = 3) (pm_points m) ->
  Forall (permas_block (length (pm_points m))) (pm_cells m) ->
  In b (pm_cells m) -> In (btype b) reordered -> In c (bdata b) -> NoDup c ->
  exists file m', write_permas v m = Ok file /\ read_permas (fl := fl) file = Ok m' /\ pm_cells m' <> pm_cells m.
Proof.
  intros Hf Hp Hb Hin Ht Hc Hn. destruct (permas_roundtrip Hf v m) as (file & E & R); auto.
  exists file, (PermasMesh (map in_space (pm_points m)) (map in_file (pm_cells m))). split; [exact E|]. split; [exact R|]. cbn [pm_cells]. intros Em.
  assert (Eb : in_file b = b).
  { clear - Em Hin. induction (pm_cells m) as [|a l IH]; [destruct Hin|]. cbn [map] in Em. injection Em as E1 E2. destruct Hin as [->|Hin]; auto. }
  destruct b as [t rows]. unfold in_file in Eb. cbn [btype bdata] in *. injection Eb as Eb.
  assert (Ec : file_order t c = c).
  { clear - Eb Hc. induction rows as [|a l IH]; [destruct Hc|]. cbn [map] in Eb. injection Eb as E1 E2. destruct Hc as [->|Hc]; auto. }
  rewrite Forall_forall in Hb. destruct (Hb _ Hin) as (w & Hw & Hrows). rewrite Forall_forall in Hrows. destruct (Hrows _ Hc) as [L _]. cbn [btype] in *.
  clear - Ht Hw L Ec Hn.
  assert (D : nth 1 c 0%Z <> nth 3 c 0%Z /\ nth 1 c 0%Z <> nth 4 c 0%Z /\ nth 1 c 0%Z <> nth 6 c 0%Z \/ length c < 7 /\ nth 1 c 0%Z <> nth 3 c 0%Z).
  { assert (N := proj1 (NoDup_nth c 0%Z) Hn). destruct (Nat.lt_ge_cases (length c) 7) as [S|S].
    - right. split; auto. intros X. apply N in X; [discriminate| |].
      all: cbn in Ht, Hw; repeat (destruct Ht as [<-|Ht]; [repeat (destruct Hw as [Hw|Hw]; [try discriminate; injection Hw as <-; lia|]); destruct Hw|]); destruct Ht.
    - left. repeat split; intros X; apply N in X; try discriminate; lia. }
  unfold reordered in Ht. cbn [In] in Ht. destruct Ht as [<-|[<-|[<-|[]]]]; unfold file_order in Ec; cbn [String.eqb Ascii.eqb Bool.eqb map] in Ec;
    cbn in Hw; repeat (destruct Hw as [Hw|Hw]; [try discriminate; injection Hw as <-|]); try destruct Hw;
    apply (f_equal (fun l => nth 1 l 0%Z)) in Ec; cbn [nth] in Ec; destruct D as [(D1 & D2 & D3)|[S D]]; congruence || lia.
Qed.
Print Assumptions C47_reordered_refuted.

Definition permas_example : permas_mesh int_floats :=
  PermasMesh (F := int_floats) [[0; 0; 0]; [1; 0; 0]; [0; 1; 0]; [0; 0; 1]; [1; 1; 1]]%Z
    [Block "tetra" [[0; 1; 2; 3]; [1; 2; 3; 4]]%Z; Block "vertex" [[4]]%Z; Block "tetra" [[4; 3; 2; 1]]%Z].
Example C47_example : Forall (permas_block 5) (pm_cells permas_example) /\ Forall (fun b => ~ In (btype b) reordered) (pm_cells permas_example) /\
  match write_permas "5.3.5" permas_example with
  | Ok f => read_permas (fl := int_floats) f = Ok permas_example /\ length f = 23
  | Err _ => False
  end.
Proof.
  split; [|split; [|vm_compute; split; reflexivity]].
  - repeat (apply Forall_cons || apply Forall_nil); [exists 4|exists 1|exists 4];
      (split; [cbn; tauto|]; repeat (apply Forall_cons || apply Forall_nil); (split; [reflexivity|repeat constructor; lia])).
  - repeat (apply Forall_cons || apply Forall_nil); cbn; intuition discriminate.
Qed.
Example C47_reordered_example :
  let m := PermasMesh (F := int_floats) [[0; 0]; [2; 0]; [0; 2]; [1; 0]; [1; 1]; [0; 1]]%Z [Block "triangle6" [[0; 1; 2; 3; 4; 5]]%Z] in
  Forall (permas_block 6) (pm_cells m) /\
  match write_permas "5.3.5" m with
  | Ok f => option_map pm_cells (match read_permas (fl := int_floats) f with Ok r => Some r | Err _ => None end)
            = Some [Block "triangle6" [[0; 3; 1; 4; 2; 5]]%Z]
  | Err _ => False
  end.
Proof.
  split; [|vm_compute; reflexivity]. repeat constructor. exists 6. split; [cbn; tauto|]. repeat constructor; lia.
Qed.
