(** Proofs about the parts shared by the Gmsh formats. *)
From Verif.Lib Require Import Base Facts Facts2 Text TextFacts Lines LinesFacts Runs Perm BytesFacts.
From Verif.Model Require Import Core Gmsh.
From Verif.Spec Require Import Core Blocks Gmsh.

Lemma gmsh_tables : inverse_tables gmsh_ordering meshio_ordering = true.
Proof. now vm_compute. Qed.
Lemma meshio_tables : inverse_tables meshio_ordering gmsh_ordering = true.
Proof. now vm_compute. Qed.

(** The width a permuted type must have. *)
Definition order_fits (t : string) (w : nat) : Prop :=
  forall p, dget t gmsh_ordering = Some p -> w = length p.

Lemma apply_order_inverse {A} tab1 tab2 t (row : list A) : inverse_tables tab1 tab2 = true ->
  (forall p, dget t tab1 = Some p -> length row = length p) ->
  exists r, apply_order tab1 t row = Ok r /\ length r = length row /\ apply_order tab2 t r = Ok row.
Proof.
  intros Ht Hw. unfold apply_order. pose proof (inverse_tables_spec _ _ t Ht) as H.
  destruct (dget t tab1) as [p|] eqn:E.
  - destruct H as (q & Hq & Hi). rewrite Hq.
    destruct (permute_inverse _ _ _ row Hi (Hw p eq_refl)) as (r & Hr & Hl & Hb).
    exists r. rewrite Hr, Hb, Hl. rewrite (Hw p eq_refl). auto.
  - rewrite H. exists row. auto.
Qed.

(** ** Tag lookup *)
Lemma norm_index_pos n i : (0 <= i < Z.of_nat n)%Z -> norm_index n i = Some (Z.to_nat i).
Proof.
  intros H. unfold norm_index. destruct (Z.leb_spec 0 i); [|lia]. destruct (Z.ltb_spec i (Z.of_nat n)); [auto|lia].
Qed.

Lemma fold_max_ge ts t x : In x (t :: ts) -> (x <= fold_left Z.max ts t)%Z.
Proof.
  assert (Hle : forall ts t, (t <= fold_left Z.max ts t)%Z).
  { clear. induction ts as [|y ts IH]; intros t; cbn; [lia|]. specialize (IH (Z.max t y)). lia. }
  revert t; induction ts as [|y ts IH]; intros t H; [destruct H as [->|[]]; cbn; lia|].
  cbn [fold_left]. destruct H as [->|[->|H]].
  - specialize (Hle ts (Z.max x y)). lia.
  - specialize (Hle ts (Z.max t x)). lia.
  - now apply IH; right.
Qed.

Lemma assign_from_ok k tags a : NoDup tags -> Forall (fun t => 0 <= t < Z.of_nat (length a))%Z tags ->
  exists a', assign_from k tags a = Ok a' /\ length a' = length a /\
    (forall i t, nth_error tags i = Some t -> nth_error a' (Z.to_nat t) = Some (Z.of_nat (k + i))) /\
    (forall j, ~ In (Z.of_nat j) tags -> nth_error a' j = nth_error a j).
Proof.
  revert k a; induction tags as [|t ts IH]; intros k a Hd Hr.
  - exists a. cbn. repeat split; auto. intros i t Hi. destruct i; discriminate.
  - inversion Hd as [|? ? Hn Hd']; subst. inversion Hr as [|? ? Ht Hr']; subst.
    cbn [assign_from]. rewrite norm_index_pos by auto. cbn [of_option bind].
    destruct (IH (S k) (upd (Z.to_nat t) (Z.of_nat k) a) Hd') as (a' & E & Hl & H1 & H2).
    { now rewrite upd_length. }
    exists a'. split; [auto|]. rewrite upd_length in Hl. split; [auto|]. split.
    + intros [|i] u Hu; cbn in Hu.
      * injection Hu as <-. rewrite H2 by (rewrite Z2Nat.id by lia; auto).
        rewrite nth_error_upd, Nat.eqb_refl. destruct (Nat.ltb_spec (Z.to_nat t) (length a)); [|lia].
        f_equal. lia.
      * rewrite (H1 i u Hu). f_equal. lia.
    + intros j Hj. rewrite H2 by (intros Hin; apply Hj; now right).
      rewrite nth_error_upd. destruct (Nat.eqb_spec (Z.to_nat t) j); [|auto]. exfalso. apply Hj. left. lia.
Qed.

(** C26: every tag leads to the position of the point that carries it. *)
Lemma lookup_table_ok tags : tags <> [] -> NoDup tags -> Forall (fun t => 0 <= t)%Z tags ->
  exists table, lookup_table tags = Ok table /\
    forall k t, nth_error tags k = Some t -> znth table t = Some (Z.of_nat k).
Proof.
  intros Hne Hd Hp. destruct tags as [|t0 ts]; [congruence|]. unfold lookup_table.
  set (m := fold_left Z.max ts t0).
  assert (Hm : forall x, In x (t0 :: ts) -> (x <= m)%Z) by (intros; now apply fold_max_ge).
  rewrite Forall_forall in Hp. pose proof (Hm t0 (or_introl eq_refl)). pose proof (Hp t0 (or_introl eq_refl)).
  destruct (Z.ltb_spec (m + 1) 0); [lia|].
  destruct (assign_from_ok 0 (t0 :: ts) (repeat (-1)%Z (Z.to_nat (m + 1))) Hd) as (a & E & Hl & Ha & _).
  { apply Forall_forall. intros x Hx. rewrite repeat_length. specialize (Hm x Hx). specialize (Hp x Hx). lia. }
  exists a. split; [exact E|]. intros k t Hk. unfold znth.
  assert (0 <= t)%Z by (apply Hp; eapply nth_error_In; eauto).
  destruct (Z.leb_spec 0 t); [|lia]. now apply Ha.
Qed.

Lemma lookup_cell_ok tags table c : 
  (forall k t, nth_error tags k = Some t -> znth table t = Some (Z.of_nat k)) ->
  forall idx, Forall2 (fun t k => nth_error tags k = Some t) c idx ->
  lookup_cell table c = Ok (map Z.of_nat idx).
Proof.
  intros H idx Hc. unfold lookup_cell, gather. apply mapM_Forall2.
  induction Hc as [|t k c idx Ht Hc IH]; cbn; constructor; auto. now rewrite (H k t Ht).
Qed.

(** Consecutive tags 1..n. *)
Lemma lookup_seq n c table : 
  (forall k t, nth_error (map Z.of_nat (seq 0 n)) k = Some t -> znth table t = Some (Z.of_nat k)) ->
  Forall (fun i => 0 <= i < Z.of_nat n)%Z c -> lookup_cell table c = Ok c.
Proof.
  intros H Hc. rewrite (lookup_cell_ok _ _ c H (map Z.to_nat c)).
  - rewrite map_map. f_equal. rewrite <- (map_id c) at 2. apply map_ext_in. intros i Hi.
    rewrite Forall_forall in Hc. specialize (Hc i Hi). lia.
  - induction Hc as [|i c Hi Hc IH]; cbn; constructor; auto.
    rewrite nth_error_map, (nth_error_nth' _ 0) by (rewrite seq_length; lia). rewrite seq_nth by lia. cbn. f_equal. lia.
Qed.

(** ** Physical names *)
Lemma shlex_plain_word w s tok : 
  no_space w = true -> char_in dq w = false -> char_in squote w = false -> char_in backslash w = false ->
  shlex Plain (Some tok) (w ++ s)%string = shlex Plain (Some (tok ++ w)%string) s.
Proof.
  revert tok; induction w as [|c w IH]; intros tok H1 H2 H3 H4; cbn [append]; [now rewrite str_app_nil_r|].
  cbn [no_space char_in] in *. apply andb_true_iff in H1. destruct H1 as [Hc H1]. apply negb_true_iff in Hc.
  apply orb_false_iff in H2, H3, H4. destruct H2 as [H2 H2'], H3 as [H3 H3'], H4 as [H4 H4'].
  rewrite Ascii.eqb_sym in H2, H3, H4. cbn [shlex]. rewrite Hc, H2, H3, H4. rewrite IH by auto.
  f_equal. f_equal. rewrite str_app_assoc. reflexivity.
Qed.
Lemma shlex_word w s : word w = true -> char_in dq w = false -> char_in squote w = false -> char_in backslash w = false ->
  shlex Plain None (w ++ String " " s)%string = (do r <- shlex Plain None s; Ok (w :: r)).
Proof.
  intros Hw H2 H3 H4. destruct w as [|c w]; [discriminate|].
  assert (Hn := proj1 (word_no_space _ Hw)).
  cbn [no_space char_in] in *. apply andb_true_iff in Hn. destruct Hn as [Hc H1]. apply negb_true_iff in Hc.
  apply orb_false_iff in H2, H3, H4. destruct H2 as [H2 H2'], H3 as [H3 H3'], H4 as [H4 H4'].
  rewrite Ascii.eqb_sym in H2, H3, H4. cbn [append shlex]. rewrite Hc, H2, H3, H4.
  rewrite (shlex_plain_word w (String " " s) (String c "")) by auto. cbn [append shlex].
  change (is_space " ") with true. reflexivity.
Qed.
Lemma shlex_double w s tok : char_in dq w = false -> char_in backslash w = false ->
  shlex InDouble (Some tok) (w ++ s)%string = shlex InDouble (Some (tok ++ w)%string) s.
Proof.
  revert tok; induction w as [|c w IH]; intros tok H2 H4; cbn [append]; [now rewrite str_app_nil_r|].
  cbn [char_in] in *. apply orb_false_iff in H2, H4. destruct H2 as [H2 H2'], H4 as [H4 H4'].
  rewrite Ascii.eqb_sym in H2, H4. cbn [shlex]. rewrite H2, H4. rewrite IH by auto.
  f_equal. f_equal. rewrite str_app_assoc. reflexivity.
Qed.

Lemma all_digits_char c s : all_digits s = true -> is_digit c = false -> char_in c s = false.
Proof.
  induction s as [|a s IH]; cbn; auto. intros H Hc. apply andb_true_iff in H. destruct H as [Ha H].
  rewrite IH by auto. destruct (Ascii.eqb_spec c a) as [->|]; [congruence|reflexivity].
Qed.
Lemma char_in_str_of_Z c z : is_digit c = false -> c <> "-"%char -> char_in c (str_of_Z z) = false.
Proof.
  intros H Hm. destruct z as [|p|p]; cbn [str_of_Z].
  - cbn. destruct (Ascii.eqb_spec c "0"); [subst; discriminate|reflexivity].
  - apply all_digits_char; auto. apply str_of_N_all_digits.
  - cbn [char_in]. destruct (Ascii.eqb_spec c "-"); [congruence|]. apply all_digits_char; auto. apply str_of_N_all_digits.
Qed.

Lemma read_physical_name_ok d n s : plain_name s ->
  read_physical_name (row_line [str_of_Z d; str_of_Z n; quoted s]) = Ok (s, (n, d)).
Proof.
  intros (H1 & H2 & _). unfold read_physical_name, row_line. rewrite !join_cons. cbn [join String.concat].
  rewrite !str_char_app.
  rewrite shlex_word by (first [apply word_str_of_Z | apply char_in_str_of_Z; [reflexivity|discriminate]]).
  rewrite shlex_word by (first [apply word_str_of_Z | apply char_in_str_of_Z; [reflexivity|discriminate]]).
  unfold quoted. cbn [shlex]. change (is_space dq) with false. rewrite Ascii.eqb_refl. cbn iota.
  rewrite shlex_double by auto. cbn [append shlex]. rewrite Ascii.eqb_refl. cbn [bind nth_error of_option].
  rewrite !parse_Z_str_of_Z. reflexivity.
Qed.

Lemma insert_entry_In x y l : In y (insert_entry x l) <-> y = x \/ In y l.
Proof.
  induction l as [|z l IH]; cbn; [intuition|]. destruct (entry_le x z); cbn; rewrite ?IH; intuition.
Qed.
Lemma sort_entries_In y l : In y (sort_entries l) <-> In y l.
Proof. induction l as [|x l IH]; cbn; [tauto|]. rewrite insert_entry_In, IH. intuition. Qed.
Lemma insert_entry_length x l : length (insert_entry x l) = S (length l).
Proof. induction l as [|y l IH]; cbn; auto. destruct (entry_le x y); cbn; auto. Qed.
Lemma sort_entries_length l : length (sort_entries l) = length l.
Proof. induction l as [|x l IH]; cbn; auto. now rewrite insert_entry_length, <- IH. Qed.

Definition to_entry (kv : string * (Z * Z)) : entry := (snd (snd kv), fst (snd kv), fst kv).
Definition of_entry (e : entry) : string * (Z * Z) := let '(d, n, s) := e in (s, (n, d)).

Lemma dget_dupdate_keys {V} k (e d : dict V) : NoDup (dkeys e) ->
  dget k (dupdate d e) = match dget k e with Some v => Some v | None => dget k d end.
Proof.
  unfold dupdate. revert d; induction e as [|[k' v] e IH]; intros d H; cbn; auto.
  cbn in H. inversion H as [|? ? Hn Hd]; subst. rewrite IH by auto. rewrite dget_dset.
  destruct (String.eqb_spec k k') as [->|Hne]; [|reflexivity].
  apply dget_None in Hn. unfold dkeys in *. now rewrite Hn.
Qed.

Lemma dget_In_iff {V} k (v : V) d : NoDup (dkeys d) -> (dget k d = Some v <-> In (k, v) d).
Proof.
  intros H. split; [apply dget_In|]. induction d as [|[k' v'] d IH]; cbn; [tauto|]. intros [E|Hin].
  - injection E as -> ->. now rewrite String.eqb_refl.
  - cbn in H. inversion H as [|? ? Hn Hd]; subst. destruct (String.eqb_spec k k') as [->|Hne]; auto.
    exfalso. apply Hn. unfold dkeys. change k' with (fst (k', v)). now apply in_map.
Qed.

From Coq Require Import Sorting.Permutation.
Lemma insert_entry_perm x l : Permutation (insert_entry x l) (x :: l).
Proof.
  induction l as [|y l IH]; cbn; auto. destruct (entry_le x y); auto.
  rewrite IH. apply perm_swap.
Qed.
Lemma sort_entries_perm l : Permutation (sort_entries l) l.
Proof. induction l as [|x l IH]; cbn; auto. rewrite insert_entry_perm. now constructor. Qed.

Lemma physical_names_ok fd rest : NoDup (dkeys fd) -> Forall plain_name (dkeys fd) -> fd <> [] ->
  exists fd', read_physical_names [] (tl (write_physical_names fd ++ rest)) = Ok (fd', rest) /\
    (forall k, dget k fd' = dget k fd) /\ hd "" (write_physical_names fd) = "$PhysicalNames".
Proof.
  intros Hd Hp Hne. unfold write_physical_names.
  change (map (fun kv => (snd (snd kv), fst (snd kv), fst kv)) fd) with (map to_entry fd).
  pose proof (sort_entries_perm (map to_entry fd)) as P.
  set (es := sort_entries (map to_entry fd)) in *.
  assert (Hl : length es = length fd) by (unfold es; now rewrite sort_entries_length, map_length).
  destruct es as [|e0 es'] eqn:E; [destruct fd; [congruence|discriminate]|]. rewrite <- E in *.
  cbn [app tl hd]. unfold read_physical_names. cbn [line1 hd tl]. rewrite int_line_nat. cbn [bind].
  rewrite Nat2Z.id. rewrite <- app_assoc.
  assert (Hm : mapM read_physical_name (map (fun e : entry => let '(d, n, s) := e in row_line [str_of_Z d; str_of_Z n; quoted s]) es)
               = Ok (map of_entry es)).
  { assert (Hpe : Forall (fun e : entry => plain_name (snd e)) es).
    { apply Forall_forall. intros e He. apply (Permutation_in _ P) in He. apply in_map_iff in He.
      destruct He as (kv & <- & Hin). cbn. rewrite Forall_forall in Hp. apply Hp. unfold dkeys. now apply in_map. }
    clear - Hpe. induction Hpe as [|[[d n] s] es He Hes IH]; [reflexivity|]. cbn [map mapM of_entry].
    rewrite read_physical_name_ok by auto. cbn [bind]. now rewrite IH. }
  rewrite (read_lines_n _ _ _ _ (["$EndPhysicalNames"] ++ rest)%list) with (2 := Hm) by (now rewrite map_length).
  cbn [bind fst snd app]. rewrite skip_to_here by reflexivity.
  eexists. split; [reflexivity|]. split; [|reflexivity]. intros k.
  assert (P2 : Permutation (map of_entry es) fd).
  { apply (Permutation_map of_entry) in P. rewrite map_map in P. rewrite P.
    rewrite <- (map_id fd) at 2. apply Permutation_refl' . apply map_ext. intros [s [n d]]. reflexivity. }
  assert (Hd2 : NoDup (dkeys (map of_entry es))).
  { apply (Permutation_NoDup (Permutation_sym (Permutation_map fst P2)) Hd). }
  rewrite dget_dupdate_keys by auto. cbn [dget].
  destruct (dget k (map of_entry es)) as [v|] eqn:E1; symmetry.
  - apply dget_In_iff in E1; auto. apply dget_In_iff; auto. now apply (Permutation_in _ P2).
  - apply dget_None in E1. apply dget_None. intros Hin. apply E1.
    apply (Permutation_in _ (Permutation_sym (Permutation_map fst P2)) Hin).
Qed.

(** ** Data sections *)
Section Data.
Context {fl : floats}.
Hypothesis Hfl : floats_ok fl.

Lemma unquote_plain s : char_in dq s = false -> unquote s = s.
Proof.
  induction s as [|c s IH]; cbn [unquote char_in]; auto. intros H. apply orb_false_iff in H. destruct H as [H1 H2].
  rewrite Ascii.eqb_sym, H1. now rewrite IH.
Qed.
Lemma unquote_app a b : unquote (a ++ b)%string = (unquote a ++ unquote b)%string.
Proof. induction a as [|c a IH]; cbn [append unquote]; auto. destruct (Ascii.eqb c dq); auto. cbn. now rewrite IH. Qed.
Lemma strip_quoted s : strip (quoted s) = quoted s.
Proof.
  unfold quoted, strip. cbn [lstrip]. change (is_space dq) with false.
  exact (rstrip_app_word (String dq s) (String dq "") eq_refl).
Qed.
Lemma unquote_quoted s : char_in dq s = false -> unquote (strip (quoted s)) = s.
Proof.
  intros H. rewrite strip_quoted. unfold quoted. cbn [unquote]. rewrite Ascii.eqb_refl, unquote_app.
  rewrite unquote_plain by auto. cbn [unquote]. rewrite Ascii.eqb_refl. apply str_app_nil_r.
Qed.

Lemma indexed_rows_words rows :
  Forall (fun r => forallb word r = true /\ r <> [])
    (map (fun kr : nat * list fl => str_of_nat (fst kr + 1) :: map ffmt (snd kr)) rows).
Proof.
  apply Forall_forall. intros r Hr. apply in_map_iff in Hr. destruct Hr as ([k x] & <- & _).
  split; [|discriminate]. cbn [forallb fst snd]. now rewrite word_str_of_nat, words_floats.
Qed.

Lemma indexed_rows_length w (rows : list (list fl)) : Forall (fun r => length r = w) rows ->
  Forall (fun r => length r = S w)
    (map (fun kr : nat * list fl => str_of_nat (fst kr + 1) :: map ffmt (snd kr)) (enumerate rows)).
Proof.
  intros H. apply Forall_forall. intros r Hr. apply in_map_iff in Hr. destruct Hr as ([k x] & <- & Hin).
  cbn [length snd]. rewrite map_length. f_equal. rewrite Forall_forall in H. apply H.
  unfold enumerate in Hin. now apply in_combine_r in Hin.
Qed.

Lemma enumerate_length {A} (l : list A) : length (enumerate l) = length l.
Proof. unfold enumerate. rewrite combine_length, seq_length. lia. Qed.
Lemma enumerate_snd {A} (l : list A) : map snd (enumerate l) = l.
Proof.
  unfold enumerate. generalize 0. induction l as [|x l IH]; intros k; cbn; auto. now rewrite IH.
Qed.

Lemma data_section_ok tag name nc rows dd rest : word (end_line tag) = true ->
  char_in dq name = false -> In nc [1; 3; 9] -> Forall (fun r : list fl => length r = nc) rows -> 
  exists body, write_data tag name nc rows = Ok (("$" ++ tag)%string :: body) /\
    read_data tag dd (body ++ rest) = Ok (dset name rows dd, rest).
Proof.
  intros Ht Hn Hnc Hr. unfold write_data.
  assert (Hc : negb (Nat.eqb nc 1 || Nat.eqb nc 3 || Nat.eqb nc 9) = false)
    by (destruct Hnc as [<-|[<-|[<-|[]]]]; reflexivity).
  rewrite Hc. cbn [app]. eexists. split; [reflexivity|].
  unfold read_data. cbn [line1 hd tl app].
  change (int_line "1") with (@Ok Z 1%Z). cbn [bind]. change (Z.to_nat 1) with 1.
  cbn [read_lines line1 hd tl bind fst snd].
  change (int_line "1") with (@Ok Z 1%Z). cbn [bind]. change (Z.to_nat 1) with 1.
  cbn [read_lines line1 hd tl bind fst snd].
  change (int_line "3") with (@Ok Z 3%Z). cbn [bind]. change (Z.to_nat 3) with 3.
  cbn [read_lines line1 hd tl bind fst snd].
  change (int_line "0") with (@Ok Z 0%Z). cbn [bind].
  rewrite !int_line_nat. cbn [bind fst snd nth_error of_option].
  rewrite !Nat2Z.id, <- app_assoc.
  set (trows := map (fun kr : nat * list fl => str_of_nat (fst kr + 1) :: map ffmt (snd kr)) (enumerate rows)).
  assert (El : map (fun kr : nat * list fl => row_line (str_of_nat (fst kr + 1) :: map ffmt (snd kr))) (enumerate rows)
               = map row_line trows) by (unfold trows; now rewrite map_map).
  rewrite El.
  assert (Hlen : Forall (fun r => length r = S nc) trows) by (now apply indexed_rows_length).
  assert (Hlc : length (concat trows) = length rows * S nc).
  { rewrite (concat_uniform_length (S nc)) by auto. unfold trows. rewrite map_length, enumerate_length. lia. }
  rewrite take_rows with (rows := trows); auto.
  2: { apply solid_cons. now apply blank_word. }
  2: { apply indexed_rows_words. }
  cbn [of_option bind fst snd].
  rewrite (chunks_concat (S nc)) by (auto; lia).
  assert (Hp : mapM (fun r => @parse_floats fl (tl r)) trows = Ok rows).
  { unfold trows. rewrite <- (enumerate_snd rows) at 2. clear - Hfl. induction (enumerate rows) as [|[k r] l IH]; [reflexivity|].
    cbn [map mapM tl snd fst]. rewrite parse_floats_ok by auto. cbn [bind]. now rewrite IH. }
  rewrite Hp. cbn [bind hd_error of_option]. rewrite unquote_quoted by auto. cbn [app]. rewrite skip_to_here by auto. reflexivity.
Qed.
End Data.
