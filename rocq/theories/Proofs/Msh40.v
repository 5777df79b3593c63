(** MSH 4.0 files (C24). *)
From Coq Require Import ZArith NArith List String Ascii Bool Lia ZifyBool ZifyNat ZifyN.
From Verif.Lib Require Import Base Facts Facts2 Text TextFacts Lines LinesFacts Runs Perm Bytes BytesFacts File.
From Verif.Model Require Import Core Gmsh Gmsh22 Port Msh41 Msh40.
From Verif.Spec Require Import Core Blocks Gmsh Gmsh22 Msh41 Msh40.
From Verif.Proofs Require Import Core CoreMisc Vtu Gmsh Gmsh22 Gmsh22File Port Msh41 Msh41File.
Import Model.Gmsh Model.Port Model.Msh41 Model.Msh40 Spec.Msh41 Spec.Msh40.
Import ListNotations.

Definition node_rows40 {F} (pts : list (list F)) : list (list (item F)) :=
  [Int CSize 1; Int CSize (Z.of_nat (length pts))] :: [Int CInt 1; Int CInt 0; Int CInt 0; Int CSize (Z.of_nat (length pts))]
  :: map (fun kx => Int CInt (Z.of_nat (fst kx + 1)) :: map Dbl (snd kx)) (enumerate pts).
Definition tags40 (n : nat) : list Z := map (fun k => Z.of_nat (k + 1)) (seq 0 n).
Definition nodes_law {F} (p : port F) (good : list (unt p) -> Prop) : Prop :=
  forall pts rest, Forall (fun x => length x = 3) pts -> (Z.of_nat (length pts) < 2 ^ 31 - 1)%Z -> good rest ->
    get_nodes40 p (put p (node_rows40 pts) ++ closing p "Nodes" ++ rest) = Ok (pts, tags40 (length pts), rest).
Definition periodic_rows {F} (ks : list (link F)) : list (list (item F)) := [Int CInt (Z.of_nat (length ks))] :: flat_map link_rows40 ks.
Definition periodic_law {F} (p : port F) (good : list (unt p) -> Prop) (ks : list (link F)) : Prop :=
  rows_ok (periodic_rows ks) /\
  forall rest, good rest -> read_periodic40 p (put p (periodic_rows ks) ++ closing p "Periodic" ++ rest) = Ok (ks, rest).

Lemma node_rows_ok {F} (pts : list (list F)) : (Z.of_nat (length pts) < 2 ^ 31 - 1)%Z -> rows_ok (node_rows40 pts).
Proof.
  intros H. constructor; [split; [discriminate|repeat (constructor; [cbn; lia|]); constructor]|].
  constructor; [split; [discriminate|repeat (constructor; [cbn; lia|]); constructor]|].
  apply Forall_map, Forall_forall. intros [k x] Hk. apply enumerate_In in Hk. cbn [fst snd]. split; [discriminate|].
  constructor; [cbn; lia|]. apply Forall_map, Forall_forall. intros; exact I.
Qed.
Lemma tags40_enumerate {A} (l : list A) : map (fun kx => Z.of_nat (fst kx + 1)) (enumerate l) = tags40 (length l).
Proof. unfold tags40. rewrite <- enumerate_fst, map_map. reflexivity. Qed.

(** ** ASCII *)
Section AsciiLaws.
Context {fl : floats}.
Hypothesis Hfl : floats_ok fl.
Lemma row_ints zs : split_ws (row_line (map str_of_Z zs)) = map str_of_Z zs.
Proof. unfold row_line. apply split_ws_join, words_ints. Qed.
Lemma node_line_ok (k : nat) (x : list fl) : length x = 3 ->
  node_line40 (row_line (map item_token (Int CInt (Z.of_nat (k + 1)) :: map Dbl x))) = Ok (Z.of_nat (k + 1), x).
Proof.
  intros H. destruct x as [|a [|b [|c [|]]]]; try discriminate. unfold node_line40, row_line.
  rewrite split_ws_join by (now apply words_items). cbn [map item_token].
  change [ffmt a; ffmt b; ffmt c] with (map ffmt [a; b; c]). rewrite parse_floats_ok by exact Hfl. cbn [bind].
  now rewrite parse_Z_str_of_Z.
Qed.
Lemma ascii_nodes : nodes_law (ascii_port (fl := fl)) solid.
Proof.
  intros pts rest Hx Hn Hr. cbn [ascii_port put closing get_nodes40]. unfold node_rows40. cbn [put_ascii map].
  change (row_line [item_token (Int (F := fl) CSize 1); item_token (Int (F := fl) CSize (Z.of_nat (length pts)))]) with (row_line (map str_of_Z [1; Z.of_nat (length pts)]%Z)).
  change (row_line [item_token (Int (F := fl) CInt 1); item_token (Int (F := fl) CInt 0); item_token (Int (F := fl) CInt 0); item_token (Int (F := fl) CSize (Z.of_nat (length pts)))])
    with (row_line (map str_of_Z [1; 0; 0; Z.of_nat (length pts)]%Z)).
  unfold get_nodes40_ascii. cbn [app line1 hd tl]. rewrite row_ints, parse_ints_ok. cbn [bind].
  change (Z.to_nat 1) with 1. cbn [node_blocks40 line1 hd tl]. rewrite row_ints, parse_ints_ok. cbn [bind]. rewrite Nat2Z.id.
  rewrite map_map.
  rewrite (read_lines_n node_line40 (length pts) _ (map (fun kx => (Z.of_nat (fst kx + 1), snd kx)) (enumerate pts))).
  - cbn [bind fst snd app]. rewrite app_nil_r, map_length, enumerate_length, Z.eqb_refl. rewrite !map_map. cbn [fst snd].
    rewrite enumerate_snd, tags40_enumerate.
    change (skip_to _ (end_line "Nodes" :: rest)) with (skip_to (end_line "Nodes") (end_line "Nodes" :: rest)). now rewrite skip_to_here.
  - now rewrite map_length, enumerate_length.
  - rewrite mapM_map. apply mapM_ok_in. intros [k x] Hk. cbn [fst snd]. apply node_line_ok.
    apply enumerate_In in Hk. rewrite Forall_forall in Hx. apply Hx. tauto.
Qed.

Lemma not_affine z : startswith (str_of_Z z) "Affine" = false.
Proof.
  pose proof (parse_Z_str_of_Z z) as H. destruct (startswith (str_of_Z z) "Affine") eqn:E; [|reflexivity]. exfalso.
  destruct (str_of_Z z) as [|c s]; [discriminate|]. unfold startswith in E. cbn [String.prefix] in E.
  destruct (ascii_dec "A" c) as [<-|]; [|discriminate]. vm_compute in H. discriminate.
Qed.
Lemma ascii_link k rest : plain_link k -> solid rest ->
  read_link40 (ascii_port (fl := fl)) (put_ascii (link_rows40 k) ++ rest) = Ok (k, rest) /\ solid (put_ascii (link_rows40 k) ++ rest).
Proof.
  intros (R1 & R2 & R3 & R4 & R5 & R6) Hr. destruct k as [d sl ma af ns]. cbn [k_dim k_slave k_master k_affine k_nodes] in *. subst af.
  unfold link_rows40. cbn [k_dim k_slave k_master k_affine k_nodes app].
  set (pairs := map (fun sm : Z * Z => [Int (F := fl) CInt (fst sm + 1); Int CInt (snd sm + 1)]) ns).
  assert (Op : rows_ok pairs).
  { apply Forall_map. eapply Forall_impl; [|exact R4]. intros [a b] [A B]. split; [discriminate|]. repeat (constructor; [assumption|]). constructor. }
  assert (O3 : rows_ok [[Int (F := fl) CInt d; Int CInt sl; Int CInt ma]]).
  { constructor; [split; [discriminate|repeat (constructor; [assumption|]); constructor]|constructor]. }
  set (tail := put_ascii pairs ++ rest).
  assert (St : solid tail) by (now apply put_ascii_solid).
  set (count := row_line (map item_token [Int (F := fl) CInt (Z.of_nat (length ns))])).
  change (put_ascii ([Int CInt d; Int CInt sl; Int CInt ma] :: [Int CInt (Z.of_nat (length ns))] :: pairs) ++ rest)
    with (put_ascii [[Int (F := fl) CInt d; Int CInt sl; Int CInt ma]] ++ count :: tail).
  assert (Ec : count = str_of_Z (Z.of_nat (length ns))) by reflexivity.
  assert (Sc : solid (count :: tail)) by (apply solid_cons; rewrite Ec; apply blank_word, word_str_of_Z).
  split; [|now apply put_ascii_solid].
  pose proof (put_ascii_holds Hfl _ _ Sc O3) as H. cbn [concat app] in H.
  unfold read_link40. cbn [ascii_port get_ints get_pairs40].
  destruct (get_ints_ascii_ok CInt [d; sl; ma] [] _ _ H) as (s1 & A1 & H1). cbn [length] in A1. rewrite A1. cbn [bind fst snd].
  apply (ok_nil _ _ _ (ascii_port_ok Hfl)) in H1. subst s1.
  unfold get_pairs40_ascii. cbn [line1 hd tl]. rewrite Ec, strip_word by apply word_str_of_Z. rewrite not_affine, int_line_str. cbn [bind].
  replace (Z.of_nat (length ns) <? 0)%Z with false by lia. rewrite Nat2Z.id.
  set (zs := map (fun ab : Z * Z => [fst ab + 1; snd ab + 1]%Z) ns).
  assert (U : Forall (fun r => length r = 2) zs) by (apply Forall_map, Forall_forall; reflexivity).
  assert (L : length (concat zs) = 2 * length ns).
  { rewrite (concat_uniform_length 2) by exact U. unfold zs. rewrite map_length. lia. }
  pose proof (put_ascii_holds Hfl pairs rest Hr Op) as Hp.
  assert (Ep : concat pairs = map (Int CInt) (concat zs) ++ []).
  { rewrite app_nil_r. unfold pairs, zs. rewrite <- concat_map_map, map_map. reflexivity. }
  rewrite Ep in Hp. destruct (get_ints_ascii_ok CInt (concat zs) [] _ _ Hp) as (s2 & A2 & H2). rewrite L in A2.
  unfold tail. rewrite A2. cbn [bind fst snd]. apply (ok_nil _ _ _ (ascii_port_ok Hfl)) in H2. subst s2.
  rewrite L, Nat.mul_comm, Nat.mod_mul by lia. cbn [Nat.eqb negb]. f_equal. f_equal. f_equal.
  rewrite chunks_concat by (auto; lia). unfold zs. rewrite map_map. cbn [nth]. rewrite <- (map_id ns) at 2.
  apply map_ext. intros [a b]. cbn [fst snd]. f_equal; lia.
Qed.
Lemma put_ascii_app (a b : list (list (item fl))) : put_ascii (a ++ b) = put_ascii a ++ put_ascii b.
Proof. apply map_app. Qed.
Lemma ascii_links ks rest : Forall plain_link ks -> solid rest ->
  read_links40 (ascii_port (fl := fl)) (length ks) (put_ascii (flat_map link_rows40 ks) ++ rest) = Ok (ks, rest) /\
  solid (put_ascii (flat_map link_rows40 ks) ++ rest).
Proof.
  intros H Hr. induction H as [|k ks Hk H [IH1 IH2]]; [split; [reflexivity|exact Hr]|].
  cbn [flat_map length read_links40]. rewrite put_ascii_app, <- app_assoc. destruct (ascii_link k _ Hk IH2) as [A B]. split; [|exact B].
  rewrite A. cbn [bind fst snd]. rewrite IH1. reflexivity.
Qed.
Lemma plain_rows k : plain_link (F := fl) k -> rows_ok (link_rows40 k).
Proof.
  intros (R1 & R2 & R3 & R4 & R5 & R6). unfold link_rows40. rewrite R6. cbn [app].
  constructor; [split; [discriminate|repeat (constructor; [assumption|]); constructor]|].
  constructor; [split; [discriminate|constructor; [exact R5|constructor]]|].
  apply Forall_map. eapply Forall_impl; [|exact R4]. intros [a b] [A B]. split; [discriminate|]. repeat (constructor; [assumption|]). constructor.
Qed.
Lemma ascii_periodic ks : Forall plain_link ks -> in_range CInt (Z.of_nat (length ks)) -> periodic_law (ascii_port (fl := fl)) solid ks.
Proof.
  intros H Hn. split.
  - constructor; [split; [discriminate|constructor; [exact Hn|constructor]]|].
    rewrite flat_map_concat_map. apply Forall_concat, Forall_map. eapply Forall_impl; [|exact H]. apply plain_rows.
  - intros rest Hr. cbn [ascii_port put closing]. unfold periodic_rows.
    assert (Sr : solid ([end_line "Periodic"] ++ rest)) by (apply solid_cons; now apply blank_word).
    destruct (ascii_links ks _ H Sr) as [A B].
    change (put_ascii ([Int CInt (Z.of_nat (length ks))] :: flat_map link_rows40 ks) ++ [end_line "Periodic"] ++ rest)
      with (put_ascii [[Int (F := fl) CInt (Z.of_nat (length ks))]] ++ put_ascii (flat_map link_rows40 ks) ++ [end_line "Periodic"] ++ rest).
    assert (O1 : rows_ok [[Int (F := fl) CInt (Z.of_nat (length ks))]]) by (constructor; [split; [discriminate|constructor; [exact Hn|constructor]]|constructor]).
    pose proof (put_ascii_holds Hfl _ _ B O1) as H1. cbn [concat app] in H1.
    unfold read_periodic40. destruct (get_one_ok _ _ _ (ascii_port_ok Hfl) CInt _ _ _ _ Hn H1) as (s1 & A1 & H2).
    apply (ok_nil _ _ _ (ascii_port_ok Hfl)) in H2. subst s1.
    cbn [app] in *.
    rewrite A1. cbn [bind fst snd]. rewrite Nat2Z.id, A. cbn [bind fst snd].
    change (skip_end ascii_port "Periodic" (end_line "Periodic" :: rest)) with (skip_to (end_line "Periodic") (end_line "Periodic" :: rest)).
    now rewrite skip_to_here.
Qed.
End AsciiLaws.

(** ** Binary *)
Section BinaryLaws.
Context {F : Type} (c8 : codec F).
Hypothesis Hc : codec_ok c8.
Lemma binary_nodes_bytes (pts : list (list F)) (rest : bytes) : Forall (fun x => length x = 3) pts -> (Z.of_nat (length pts) < 2 ^ 31 - 1)%Z ->
  Forall is_byte rest ->
  get_nodes40_binary c8 (put_binary c8 (node_rows40 pts) ++ closing_binary "Nodes" ++ rest) = Ok (pts, tags40 (length pts), rest).
Proof.
  intros Hx Hn Hr.
  assert (Gc : Forall is_byte (closing_binary "Nodes" ++ rest)) by (apply Forall_app; split; [apply closing_byte|exact Hr]).
  assert (H : holds_binary c8 (put_binary c8 (node_rows40 pts) ++ closing_binary "Nodes" ++ rest) (concat (node_rows40 pts)) (closing_binary "Nodes" ++ rest))
    by (exact (ok_put _ _ _ (binary_port_ok c8 Hc) (node_rows40 pts) _ Gc (node_rows_ok pts Hn))).
  unfold node_rows40 in *. cbn [concat app] in H.
  unfold get_nodes40_binary.
  destruct (get_ints_binary_ok c8 CSize [1; Z.of_nat (length pts)]%Z _ _ _ (ltac:(repeat (constructor; [cbn; lia|]); constructor)) H) as (s1 & A1 & H1).
  cbn [length] in A1. rewrite A1. cbn [bind fst snd]. change (1 =? 0)%Z with false. change (Z.to_nat 1) with 1. cbn [node_blocks40_binary].
  destruct (get_ints_binary_ok c8 CInt [1; 0; 0]%Z _ _ _ (ltac:(repeat (constructor; [cbn; lia|]); constructor)) H1) as (s2 & A2 & H2).
  cbn [length] in A2. rewrite A2. cbn [bind fst snd].
  destruct (get_ints_binary_ok c8 CSize [Z.of_nat (length pts)]%Z _ _ _ (ltac:(repeat (constructor; [cbn; lia|]); constructor)) H2) as (s3 & A3 & H3).
  cbn [length] in A3. rewrite A3. cbn [bind fst snd]. rewrite Nat2Z.id.
  assert (E : concat (map (item_bytes c8) (concat (map (fun kx : nat * list F => Int CInt (Z.of_nat (fst kx + 1)) :: map Dbl (snd kx)) (enumerate pts)))) =
              concat (map (record_bytes c8) (enumerate pts))).
  { clear. induction (enumerate pts) as [|kx l IH]; [reflexivity|]. cbn [map concat]. rewrite map_app, concat_app, IH. f_equal.
    unfold record_bytes. cbn [map concat item_bytes]. now rewrite map_map. }
  unfold holds_binary in H3. rewrite E in H3. subst s3.
  assert (Hw : Forall (fun x => length x = 28) (map (record_bytes c8) (enumerate pts))).
  { apply Forall_map, Forall_forall. intros [k x] Hk. apply enumerate_In in Hk. unfold record_bytes. cbn [fst snd].
    rewrite app_length, int_bytes_length. rewrite (concat_uniform_length 8) by (apply Forall_map, Forall_forall; intros; apply Hc).
    rewrite map_length. rewrite Forall_forall in Hx. rewrite (Hx x) by tauto. reflexivity. }
  assert (T : take_items 28 (length pts) (concat (map (record_bytes c8) (enumerate pts)) ++ closing_binary "Nodes" ++ rest) =
              (map (record_bytes c8) (enumerate pts), closing_binary "Nodes" ++ rest)).
  { rewrite <- (take_items_ok 28 _ (closing_binary "Nodes" ++ rest)) with (2 := Hw) by lia. now rewrite map_length, enumerate_length. }
  rewrite T. cbn [bind fst snd]. rewrite app_nil_r, map_map. cbn [closing_binary app]. change (N.eqb 10 10) with true. cbn iota.
  rewrite !map_map. cbn [fst snd].
  assert (Ei : map (fun x => int_of_bytes CInt (firstn 4 (record_bytes c8 x))) (enumerate pts) = tags40 (length pts)).
  { rewrite <- tags40_enumerate. apply map_ext_in. intros [k x] Hk. apply record_index. apply enumerate_In in Hk. cbn [in_range fst]. lia. }
  rewrite Ei. rewrite (map_ext _ snd) by (intros; now apply record_values). rewrite enumerate_snd. f_equal. f_equal.
  unfold skip_end_binary. rewrite to_lines_text by (constructor; [reflexivity|constructor]). cbn [app]. rewrite skip_to_here by reflexivity. now apply of_to_lines.
Qed.
Lemma binary_nodes : nodes_law (binary_port c8) (Forall is_byte).
Proof. exact binary_nodes_bytes. Qed.
Lemma binary_periodic_nil : periodic_law (binary_port c8) (Forall is_byte) [].
Proof.
  split; [constructor; [split; [discriminate|constructor; [cbn; lia|constructor]]|constructor]|].
  intros rest Hr. pose proof (binary_port_ok c8 Hc) as Hp.
  assert (Gc : Forall is_byte (closing (binary_port c8) "Periodic" ++ rest)) by (apply (ok_good_close _ _ _ Hp); auto).
  assert (O1 : rows_ok (periodic_rows (F := F) [])) by (constructor; [split; [discriminate|constructor; [cbn; lia|constructor]]|constructor]).
  pose proof (ok_put _ _ _ Hp _ _ Gc O1) as H1. cbn [periodic_rows flat_map concat app length] in H1.
  unfold read_periodic40. destruct (get_one_ok _ _ _ Hp CInt _ _ _ _ (ltac:(cbn; lia) : in_range CInt (Z.of_nat 0)) H1) as (s1 & A1 & H2).
  rewrite A1. cbn [bind fst snd]. change (Z.to_nat (Z.of_nat 0)) with 0. cbn [read_links40 bind fst snd].
  apply (ok_nil _ _ _ Hp) in H2. subst s1. now rewrite (ok_skip _ _ _ Hp).
Qed.
End BinaryLaws.

(** ** Elements *)
Section File40.
Context {F : Type} (zero : F) (p : port F) (good : list (unt p) -> Prop)
  (holds : list (unt p) -> list (item F) -> list (unt p) -> Prop).
Hypothesis Hp : port_ok p good holds.
Hypothesis Hnodes : nodes_law p good.

Definition rb40 (b : block) : rblock := RBlock (dim_of b, 1%Z) (btype b) (map (fun c => up (gorder (btype b) c)) (bdata b)).
Definition block_items40 (start : nat) (b : block) : list (item F) :=
  [Int CInt 1; Int CInt (dim_of b); Int CInt (match dget (btype b) meshio_to_gmsh_type with Some c => c | None => 0%Z end);
   Int CSize (Z.of_nat (blen b))]
  ++ map (Int CInt) (concat (map (fun kc => Z.of_nat (start + fst kc) :: up (gorder (btype b) (snd kc))) (enumerate (bdata b)))).
Fixpoint blocks_items40 (start : nat) (l : list block) : list (item F) :=
  match l with
  | [] => []
  | b :: l' => block_items40 start b ++ blocks_items40 (start + blen b) l'
  end.
Definition eblock40 (n start : nat) (b : block) : Prop :=
  gmsh_block b /\ known_dim b /\ bdata b <> [] /\ indices_below n b /\ (Z.of_nat (start + blen b) < 2 ^ 31)%Z.
Fixpoint eblocks40 (n start : nat) (l : list block) : Prop :=
  match l with
  | [] => True
  | b :: l' => eblock40 n start b /\ eblocks40 n (start + blen b) l'
  end.

Section Blocks.
Variable n : nat.
Hypothesis Hn : (Z.of_nat n < 2 ^ 31 - 1)%Z.
Lemma block_rows40_ok start b : eblock40 n start b ->
  exists rows, block_rows40 (F := F) start b = Ok rows /\ rows_ok rows /\ concat rows = block_items40 start b.
Proof.
  intros (Gb & Kb & Nb & Wi & Hs). destruct (dim_range b Gb Kb) as [Rd Ed]. unfold indices_below in Wi. rewrite Forall_forall in Wi.
  destruct Gb as (code & w & Hc & Hw & Hr). unfold rows_have in Hr. rewrite Forall_forall in Hr.
  unfold block_rows40. rewrite (mapM_ok_in _ (gorder (btype b))) by (intros c Hcin; apply (gorder_ok _ w); auto).
  cbn [bind]. rewrite Ed. cbn [bind]. rewrite Hc. cbn [of_option bind].
  eexists. split; [reflexivity|]. rewrite enumerate_map, map_map. cbn [fst snd]. rewrite Z2Nat.id by lia.
  destruct Kb as (d & Kb). destruct (gmsh_dims _ _ _ Hc Kb) as (_ & Rc).
  split.
  - constructor.
    + split; [discriminate|]. constructor; [cbn; lia|]. constructor; [cbn; lia|]. constructor; [cbn; lia|]. constructor; [cbn; lia|constructor].
    + apply Forall_map, Forall_forall. intros [k c] Hk. cbn [fst snd]. apply enumerate_In in Hk. destruct Hk as [Hk Hcin]. split; [discriminate|].
      constructor; [unfold blen in *; cbn; lia|]. apply Forall_map, Forall_forall. intros z Hz.
      apply (gorder_In (btype b) c) in Hz. specialize (Wi c Hcin). rewrite Forall_forall in Wi. specialize (Wi z Hz). cbn. lia.
  - unfold block_items40. cbn [concat]. rewrite Hc. f_equal. rewrite <- concat_map_map, map_map. f_equal.
    apply map_ext. intros [k c]. cbn [fst snd map]. unfold up. now rewrite map_map.
Qed.
Lemma read_block40_ok start b items s rest : eblock40 n start b ->
  holds s (block_items40 start b ++ items) rest ->
  exists s', read_block40 p s = Ok (rb40 b, s') /\ holds s' items rest.
Proof.
  intros (Gb & Kb & Nb & Wi & Hs) H. unfold block_items40 in H.
  destruct (dim_range b Gb Kb) as [Rd _]. unfold indices_below in Wi. rewrite Forall_forall in Wi.
  destruct Gb as (code & w & Hc & Hw & Hr). unfold rows_have in Hr. rewrite Forall_forall in Hr. rewrite Hc in H.
  destruct Kb as (d & Kb). destruct (gmsh_dims _ _ _ Hc Kb) as (_ & Rc).
  rewrite <- app_assoc in H. cbn [app] in H. unfold read_block40.
  destruct (ints3_ok p good holds Hp CInt _ _ _ _ _ _ (ltac:(cbn; lia) : in_range CInt 1) (ltac:(cbn; lia) : in_range CInt (dim_of b)) (ltac:(cbn; lia) : in_range CInt code) H) as (s1 & A1 & H1).
  rewrite A1. cbn [bind fst snd].
  destruct (get_one_ok p good holds Hp CSize _ _ _ _ (ltac:(cbn; lia) : in_range CSize (Z.of_nat (blen b))) H1) as (s2 & A2 & H2).
  rewrite A2. cbn [bind fst snd]. rewrite (gmsh_codes _ _ Hc). cbn [of_option bind]. rewrite Hw. cbn [of_option bind]. rewrite Nat2Z.id.
  set (rows := map (fun kc => Z.of_nat (start + fst kc) :: up (gorder (btype b) (snd kc))) (enumerate (bdata b))) in *.
  assert (U : Forall (fun r => length r = 1 + w) rows).
  { apply Forall_map, Forall_forall. intros [k c] Hk. apply enumerate_In in Hk. destruct Hk as [_ Hk]. cbn [fst snd length].
    unfold up. rewrite map_length. now rewrite (proj1 (proj2 (gorder_ok _ w c Hw (Hr _ Hk)))). }
  assert (L : length (concat rows) = blen b * (1 + w)).
  { rewrite (concat_uniform_length (1 + w)) by exact U. unfold rows. rewrite map_length, enumerate_length. unfold blen. lia. }
  destruct (ints_n p good holds Hp CInt (blen b * (1 + w)) (concat rows) items s2 rest) as (s3 & A3 & H3).
  { now rewrite L. }
  { apply Forall_concat. apply Forall_map, Forall_forall. intros [k c] Hk. apply enumerate_In in Hk. destruct Hk as [Hk Hcin]. cbn [fst snd].
    constructor; [unfold blen in *; cbn; lia|]. apply Forall_map, Forall_forall. intros z Hz. apply (gorder_In (btype b) c) in Hz.
    specialize (Wi c Hcin). rewrite Forall_forall in Wi. specialize (Wi z Hz). cbn. lia. }
  { exact H2. }
  rewrite A3. cbn [bind fst snd]. rewrite L, Nat.eqb_refl.
  replace (Nat.eqb (blen b) 0) with false by (unfold blen; destruct (bdata b); [congruence|reflexivity]).
  cbn [orb negb]. exists s3. split; [|exact H3]. f_equal. f_equal. unfold rb40.
  rewrite chunks_concat by (auto; lia). f_equal. unfold rows. rewrite map_map. cbn [tl].
  rewrite <- (map_map snd (fun c => up (gorder (btype b) c))), enumerate_snd. reflexivity.
Qed.
Lemma blocks_rows40_ok start l : eblocks40 n start l ->
  exists rows, blocks_rows40 (F := F) start l = Ok rows /\ rows_ok rows /\ concat rows = blocks_items40 start l.
Proof.
  revert start. induction l as [|b l IH]; intros start H; [exists []; repeat split; constructor|]. destruct H as [H1 H2].
  destruct (block_rows40_ok start b H1) as (r & A & B & C). destruct (IH _ H2) as (rs & A' & B' & C').
  exists (r ++ rs). cbn [blocks_rows40 blocks_items40]. rewrite A. cbn [bind]. rewrite A'. split; [reflexivity|]. split.
  - apply Forall_app. auto.
  - rewrite concat_app. congruence.
Qed.
Lemma read_blocks40_ok start l items s rest : eblocks40 n start l ->
  holds s (blocks_items40 start l ++ items) rest ->
  exists s', read_blocks40 p (length l) s = Ok (map rb40 l, s') /\ holds s' items rest.
Proof.
  revert start s. induction l as [|b l IH]; intros start s H Hh; [exists s; auto|]. destruct H as [H1 H2].
  cbn [blocks_items40] in Hh. rewrite <- app_assoc in Hh.
  destruct (read_block40_ok start b _ _ _ H1 Hh) as (s1 & A1 & Hs1). destruct (IH _ _ H2 Hs1) as (s2 & A2 & Hs2).
  exists s2. split; [|exact Hs2]. cbn [length read_blocks40 map]. rewrite A1. cbn [bind fst snd]. rewrite A2. reflexivity.
Qed.
Lemma all_eblocks40 l start : Forall (fun b => (gmsh_block b /\ known_dim b) /\ bdata b <> []) l -> Forall (indices_below n) l ->
  (Z.of_nat (start + sum_nat (map blen l)) < 2 ^ 31)%Z -> eblocks40 n start l.
Proof.
  revert start. induction l as [|b l IH]; intros start Hb Hi Hs; [exact I|]. inversion Hb as [|? ? [[B1 B2] B3] Hb']; subst. inversion Hi; subst.
  unfold sum_nat in *. cbn [map fold_right] in Hs. split; [|apply IH; auto; lia]. repeat split; auto. lia.
Qed.
(** Tags 1, 2, ... refer to the points in order. *)
Lemma tags40_nth k t : nth_error (tags40 n) k = Some t -> t = Z.of_nat (k + 1).
Proof.
  unfold tags40. rewrite nth_error_map. destruct (nth_error (seq 0 n) k) as [j|] eqn:E; [|discriminate]. cbn. intros H. injection H as <-.
  pose proof (nth_error_lt _ _ _ E) as L. rewrite seq_length in L. rewrite (nth_error_nth' _ 0) in E by (now rewrite seq_length).
  rewrite seq_nth in E by exact L. injection E as <-. reflexivity.
Qed.
Lemma tags40_at i : (0 <= i < Z.of_nat n)%Z -> nth_error (tags40 n) (Z.to_nat i) = Some (i + 1)%Z.
Proof.
  intros H. unfold tags40. rewrite nth_error_map. rewrite (nth_error_nth' _ 0) by (rewrite seq_length; lia). rewrite seq_nth by lia. cbn. f_equal. lia.
Qed.
Lemma table40 : 0 < n -> exists table, lookup_table (tags40 n) = Ok table /\
  forall row, Forall (fun i => 0 <= i < Z.of_nat n)%Z row -> lookup_cell table (up row) = Ok row.
Proof.
  intros H0. destruct (lookup_table_ok (tags40 n)) as (table & A & B).
  - unfold tags40. destruct n; [lia|discriminate].
  - unfold tags40. apply FinFun.Injective_map_NoDup; [intros x y; lia|apply seq_NoDup].
  - unfold tags40. apply Forall_map, Forall_forall. intros. lia.
  - exists table. split; [exact A|]. intros row Hr. rewrite (lookup_cell_ok (tags40 n) table (up row) B (map Z.to_nat row)).
    + rewrite map_map. f_equal. apply map_id_in. intros i Hi. rewrite Forall_forall in Hr. specialize (Hr i Hi). lia.
    + unfold up. clear - Hr. induction Hr as [|i row Hi Hr IH]; [constructor|]. cbn [map]. constructor; [now apply tags40_at|exact IH].
Qed.
End Blocks.

Lemma elements40_section m : msh40_mesh m ->
  exists u, write_elements40 p m = Ok (opening p "Elements" ++ u) /\
    forall rest, good rest ->
      read_elements40 p (tags40 (length (q_points m))) None (u ++ rest) =
        Ok (Elements40 (q_cells m) None (Some (map (fun b => repeat 1%Z (blen b)) (q_cells m))), rest)
      /\ good (u ++ rest).
Proof.
  intros W. pose proof (v_total _ W) as T. pose proof (proj2 (v_points _ W)) as Hn.
  assert (He : eblocks40 (length (q_points m)) 0 (q_cells m)) by (apply all_eblocks40; [apply (v_blocks _ W)|apply (v_index _ W)|lia]).
  destruct (blocks_rows40_ok _ Hn 0 _ He) as (rows & A & B1 & C). unfold write_elements40. rewrite A. cbn [bind].
  eexists. split; [reflexivity|]. intros rest Hrest. rewrite <- !app_assoc.
  assert (Gc : good (closing p "Elements" ++ rest)) by (apply (ok_good_close _ _ _ Hp); [reflexivity|exact Hrest]).
  assert (Lc : length (q_cells m) <= sum_nat (map blen (q_cells m))).
  { pose proof (v_blocks _ W) as Wb. clear - Wb. unfold sum_nat. induction Wb as [|b bs [_ Hb] H IH]; [reflexivity|]. cbn [length map fold_right].
    unfold blen at 1. destruct (bdata b); [congruence|]. cbn [length]. lia. }
  assert (Rok : rows_ok ([Int CSize (Z.of_nat (length (q_cells m))); Int CSize (Z.of_nat (sum_nat (map blen (q_cells m))))] :: rows)).
  { constructor; [|exact B1]. split; [discriminate|]. repeat (constructor; [cbn; lia|]). constructor. }
  split; [|apply (ok_good_put _ _ _ Hp); auto].
  pose proof (ok_put _ _ _ Hp _ _ Gc Rok) as H. cbn [concat app] in H. rewrite C in H. unfold read_elements40.
  destruct (ints_n p good holds Hp CSize 2 [Z.of_nat (length (q_cells m)); Z.of_nat (sum_nat (map blen (q_cells m)))] _ _ _ eq_refl
    (ltac:(repeat (constructor; [cbn; lia|]); constructor)) H) as (s1 & A1 & Hs1).
  rewrite A1. cbn [bind fst snd]. rewrite Nat2Z.id.
  destruct (read_blocks40_ok _ Hn 0 (q_cells m) [] s1 (closing p "Elements" ++ rest) He) as (s2 & A2 & Hs2).
  { now rewrite app_nil_r. }
  rewrite A2. cbn [bind fst snd]. rewrite mapM_map. rewrite (mapM_ok_in _ (fun _ => [])) by reflexivity. cbn [bind].
  assert (Np : 0 < length (q_points m)) by (pose proof (proj1 (v_points _ W)) as E; destruct (q_points m); [congruence|cbn; lia]).
  destruct (table40 _ Hn Np) as (table & T1 & T2). rewrite T1. cbn [bind].
  rewrite mapM_map. rewrite (mapM_ok_in _ (fun b => b)).
  2:{ intros b Hb. unfold rb40. cbn [rb_rows rb_type]. rewrite mapM_map.
      pose proof (v_blocks _ W) as Wb. rewrite Forall_forall in Wb. destruct (Wb b Hb) as [[(code & w & Hc & Hw & Hr) (dim & Hdim)] _].
      pose proof (v_index _ W) as Wi. rewrite Forall_forall in Wi. specialize (Wi b Hb). unfold indices_below in Wi. rewrite Forall_forall in Wi.
      unfold rows_have in Hr. rewrite Forall_forall in Hr.
      rewrite (mapM_ok_in _ (fun c => c)); [cbn [bind]; rewrite map_id, Hdim; destruct b; reflexivity|].
      intros c Hcin. rewrite T2. { cbn [bind]. apply (gorder_ok _ w); auto. }
      apply Forall_forall. intros z Hz. apply (gorder_In (btype b) c) in Hz. specialize (Wi c Hcin). rewrite Forall_forall in Wi. auto. }
  cbn [bind]. rewrite map_id. rewrite (ok_nil _ _ _ Hp _ _ Hs2), (ok_skip _ _ _ Hp) by auto.
  f_equal. f_equal. f_equal.
  - clear. unfold physical_arrays. induction (q_cells m) as [|b l IH]; [reflexivity|]. exact IH.
  - pose proof (v_cells _ W) as Hne. destruct (q_cells m) as [|b l]; [congruence|]. unfold rb40. cbn [map rb_entity rb_rows snd]. rewrite map_length. f_equal. f_equal.
    rewrite map_map. apply map_ext. intros b'. cbn [rb_entity rb_rows snd]. now rewrite map_length.
Qed.

(** ** The sections of a file *)
Inductive runs40 : list (unt p) -> state40 -> state40 -> nat -> Prop :=
| runs40_nil st : runs40 [] st st 0
| runs40_cons env u rest st st' st'' n :
    next_section40 p (opening p env ++ u ++ rest) = Ok (Some (env, u ++ rest)) -> opening p env <> [] ->
    read_section40 p env (u ++ rest) st = Ok (st', rest) -> runs40 rest st' st'' n -> runs40 (opening p env ++ u ++ rest) st st'' (S n).
Definition leads40 (s : list (unt p)) (st st' : state40) : Prop := good s /\ exists n, runs40 s st st' n.
Lemma runs40_read s st st' n f : runs40 s st st' n -> n < f -> read_sections40 p f s st = Ok st'.
Proof.
  intros H. revert f. induction H as [|env u rest st st' st'' n Hw Hg Hs Hr IH]; intros f Hf; (destruct f as [|f]; [lia|]); cbn [read_sections40].
  - now rewrite (proj2 (ok_end _ _ _ Hp)).
  - rewrite Hw. cbn [bind]. rewrite Hs. cbn [bind fst snd]. apply IH. lia.
Qed.
Lemma runs40_length s st st' n : runs40 s st st' n -> n <= length s.
Proof.
  induction 1 as [|env u rest st st' st'' n Hw Hg Hs Hr IH]; cbn [length]; [lia|]. rewrite !app_length.
  destruct (opening p env); [congruence|]. cbn [length]. lia.
Qed.
Lemma leads40_read s st st' : leads40 s st st' -> read_sections40 p (S (length s)) s st = Ok st'.
Proof. intros [_ [n H]]. pose proof (runs40_length _ _ _ _ H). apply (runs40_read _ _ _ _ _ H). lia. Qed.
Lemma leads40_nil st : leads40 [] st st.
Proof. split; [apply (ok_good_nil _ _ _ Hp)|]. exists 0. constructor. Qed.
Lemma leads40_cons env u rest st st' st'' : word env = true -> good (u ++ rest) ->
  read_section40 p env (u ++ rest) st = Ok (st', rest) -> leads40 rest st' st'' -> leads40 (opening p env ++ u ++ rest) st st''.
Proof.
  intros Hw Hg Hs [_ [n Hr]]. split; [apply (ok_open _ _ _ Hp env (u ++ rest) Hw Hg)|]. exists (S n).
  destruct (ok_open _ _ _ Hp env (u ++ rest) Hw Hg) as (_ & Hx & _ & Hne). econstructor; eauto.
Qed.
Lemma node_data40 d : fine_data (F := F) d ->
  exists secs, mapM (fun kv => put_data p "NodeData" (fst kv) (components41 (snd kv)) (snd kv)) d = Ok secs /\
    forall nd el en nm pe pd cr rest st'', leads40 rest (State40 nd el en nm pe (dupdate pd d) cr) st'' ->
      leads40 (concat secs ++ rest) (State40 nd el en nm pe pd cr) st''.
Proof.
  intros [Hk Hr]. induction d as [|[k rows] d IH].
  - exists []. split; [reflexivity|]. intros. exact H.
  - cbn [dkeys map fst] in Hk. inversion Hk as [|? ? Hk1 Hk2]; subst. inversion Hr as [|? ? [Hr1 Hr1'] Hr2]; subst. cbn [fst snd] in *.
    destruct (IH Hk2 Hr2) as (secs & E & HL). destruct (components41_ok rows Hr1) as [C1 C2].
    destruct (ok_data _ _ _ Hp "NodeData" k (components41 rows) rows eq_refl eq_refl Hk1 C1 C2 Hr1') as (u & A & B).
    exists ((opening p "NodeData" ++ u) :: secs). cbn [mapM fst snd]. rewrite A. cbn [bind]. rewrite E. split; [reflexivity|].
    intros nd el en nm pe pd cr rest st'' H. cbn [concat]. rewrite <- !app_assoc.
    specialize (HL nd el en nm pe (dset k rows pd) cr rest st'' H).
    destruct (B pd (concat secs ++ rest) (proj1 HL)) as [B1 B2].
    eapply leads40_cons; [reflexivity|exact B2| |exact HL].
    change (read_section40 p "NodeData" (u ++ concat secs ++ rest) (State40 nd el en nm pe pd cr))
      with (do r <- get_data p "NodeData" pd (u ++ concat secs ++ rest); Ok (State40 nd el en nm pe (fst r) cr, snd r)).
    rewrite B1. reflexivity.
Qed.
Lemma cell_data40 d : fine_data (F := F) d ->
  exists secs, mapM (fun kv => put_data p "ElementData" (fst kv) (components41 (snd kv)) (snd kv)) d = Ok secs /\
    forall nd el en nm pe pd cr rest st'', leads40 rest (State40 nd el en nm pe pd (dupdate cr d)) st'' ->
      leads40 (concat secs ++ rest) (State40 nd el en nm pe pd cr) st''.
Proof.
  intros [Hk Hr]. induction d as [|[k rows] d IH].
  - exists []. split; [reflexivity|]. intros. exact H.
  - cbn [dkeys map fst] in Hk. inversion Hk as [|? ? Hk1 Hk2]; subst. inversion Hr as [|? ? [Hr1 Hr1'] Hr2]; subst. cbn [fst snd] in *.
    destruct (IH Hk2 Hr2) as (secs & E & HL). destruct (components41_ok rows Hr1) as [C1 C2].
    destruct (ok_data _ _ _ Hp "ElementData" k (components41 rows) rows eq_refl eq_refl Hk1 C1 C2 Hr1') as (u & A & B).
    exists ((opening p "ElementData" ++ u) :: secs). cbn [mapM fst snd]. rewrite A. cbn [bind]. rewrite E. split; [reflexivity|].
    intros nd el en nm pe pd cr rest st'' H. cbn [concat]. rewrite <- !app_assoc.
    specialize (HL nd el en nm pe pd (dset k rows cr) rest st'' H).
    destruct (B cr (concat secs ++ rest) (proj1 HL)) as [B1 B2].
    eapply leads40_cons; [reflexivity|exact B2| |exact HL].
    change (read_section40 p "ElementData" (u ++ concat secs ++ rest) (State40 nd el en nm pe pd cr))
      with (do r <- get_data p "ElementData" cr (u ++ concat secs ++ rest); Ok (State40 nd el en nm pe pd (fst r), snd r)).
    rewrite B1. reflexivity.
Qed.

Lemma msh40_roundtrip m : msh40_mesh m -> (forall ks, q_periodic m = Some ks -> periodic_law p good ks) ->
  exists s m', write40 zero p m = Ok s /\ read40 p s = Ok m' /\ kept40 zero m m'.
Proof.
  intros W Hper.
  destruct (elements40_section m W) as (ue & Ae & Be).
  set (raw := map (fun kv => (fst kv, concat (snd kv))) (q_cdata m)).
  pose proof (v_cdata _ W) as Wc. pose proof (v_pdata _ W) as Wp.
  assert (Hne : q_cells m <> []) by apply (v_cells _ W).
  assert (Wr : raw_from_cell_data (q_cdata m) = Ok raw).
  { unfold raw_from_cell_data. apply mapM_ok_in. intros [k d] Hin. rewrite Forall_forall in Wc.
    destruct (Wc _ Hin) as (Hpc & _). cbn [snd fst] in *. destruct d; [|reflexivity]. inversion Hpc; congruence. }
  assert (Hkc : dkeys raw = dkeys (q_cdata m)) by (unfold raw, dkeys; now rewrite map_map).
  destruct (node_data40 (q_pdata m)) as (pd & Apd & Bpd).
  { split; [apply (v_pdata_names _ W)|]. eapply Forall_impl; [|exact Wp]. intros kv [E1 E2]. split; [exact E2|]. rewrite E1. apply (v_points _ W). }
  destruct (cell_data40 raw) as (cd & Acd & Bcd).
  { split; [rewrite Hkc; apply (v_cdata_names _ W)|]. unfold raw. apply Forall_map. eapply Forall_impl; [|exact Wc]. cbn [snd].
    intros kv [E1 E2]. split; [exact E2|]. rewrite (sum_concat _ _ E1). apply (v_total _ W). }
  unfold write40. rewrite Ae. cbn [bind]. rewrite Apd. cbn [bind]. rewrite Wr. cbn [bind]. rewrite Acd. cbn [bind].
  set (pts := map (pad41 zero) (q_points m)).
  assert (Lp : length pts = length (q_points m)) by apply map_length.
  set (el := Elements40 (q_cells m) None (Some (map (fun b => repeat 1%Z (blen b)) (q_cells m)))) in *.
  set (nd := (pts, tags40 (length (q_points m)))).
  set (fin := fun nm => State40 (F:=F) (Some nd) (Some el) None nm (q_periodic m) (q_pdata m) raw).
  set (tail := write_nodes40 zero p m ++ (opening p "Elements" ++ ue)
      ++ match q_periodic m with Some ks => write_periodic40 p ks | None => [] end ++ concat pd ++ concat cd).
  assert (T : forall nm, leads40 tail (State40 None None None nm None [] []) (fin nm)).
  { intros nm. unfold tail, write_nodes40. rewrite <- !app_assoc.
    assert (L1 : leads40 (concat pd ++ concat cd) (State40 (Some nd) (Some el) None nm (q_periodic m) [] []) (fin nm)).
    { apply Bpd. rewrite (dupdate_nil (q_pdata m)) by apply (v_pdata_names _ W).
      rewrite <- (app_nil_r (concat cd)). apply Bcd. rewrite dupdate_nil by (rewrite Hkc; apply (v_cdata_names _ W)). apply leads40_nil. }
    assert (L2 : leads40 (match q_periodic m with Some ks => write_periodic40 p ks | None => [] end ++ concat pd ++ concat cd)
                   (State40 (Some nd) (Some el) None nm None [] []) (fin nm)).
    { destruct (q_periodic m) as [ks|] eqn:Ek; [|exact L1]. destruct (Hper ks eq_refl) as [K1 K2].
      unfold write_periodic40. fold (periodic_rows ks). rewrite <- !app_assoc. rewrite (app_assoc (put p (periodic_rows ks))).
      eapply leads40_cons; [reflexivity| | |exact L1].
      - rewrite <- app_assoc. apply (ok_good_put _ _ _ Hp); [|exact K1]. apply (ok_good_close _ _ _ Hp); [reflexivity|]. apply (proj1 L1).
      - match goal with |- read_section40 p "Periodic" ?s (State40 ?a ?b ?c ?d ?e ?f ?g) = _ =>
          change (read_section40 p "Periodic" s (State40 a b c d e f g)) with (do r <- read_periodic40 p s; Ok (State40 a b c d (Some (fst r)) f g, snd r)) end.
        rewrite <- app_assoc, (K2 _ (proj1 L1)). reflexivity. }
    assert (L3 : leads40 (opening p "Elements" ++ ue ++ match q_periodic m with Some ks => write_periodic40 p ks | None => [] end ++ concat pd ++ concat cd)
                   (State40 (Some nd) None None nm None [] []) (fin nm)).
    { destruct (Be _ (proj1 L2)) as [B1 B2]. eapply leads40_cons; [reflexivity|exact B2| |exact L2].
      match goal with |- read_section40 p "Elements" ?s (State40 (Some ?a) ?b ?c ?d ?e ?f ?g) = _ =>
        change (read_section40 p "Elements" s (State40 (Some a) b c d e f g)) with
          (do r <- read_elements40 p (snd a) c s; Ok (State40 (Some a) (Some (fst r)) c d e f g, snd r)) end.
      unfold nd at 1. cbn [snd]. rewrite B1. reflexivity. }
    assert (Er : [Int CSize 1; Int CSize (Z.of_nat (length (q_points m)))]
         :: [Int CInt 1; Int CInt 0; Int CInt 0; Int CSize (Z.of_nat (length (q_points m)))]
            :: map (fun kx => Int CInt (Z.of_nat (fst kx + 1)) :: map Dbl (snd kx)) (enumerate (map (pad41 zero) (q_points m))) = node_rows40 pts).
    { unfold node_rows40. rewrite Lp. reflexivity. }
    rewrite Er. rewrite (app_assoc (put p (node_rows40 pts))).
    assert (Hn : (Z.of_nat (length pts) < 2 ^ 31 - 1)%Z) by (rewrite Lp; apply (v_points _ W)).
    eapply leads40_cons; [reflexivity| | |exact L3].
    - rewrite <- app_assoc. apply (ok_good_put _ _ _ Hp); [|now apply node_rows_ok]. apply (ok_good_close _ _ _ Hp); [reflexivity|]. apply (proj1 L3).
    - match goal with |- read_section40 p "Nodes" ?s (State40 ?a ?b ?c ?d ?e ?f ?g) = _ =>
        change (read_section40 p "Nodes" s (State40 a b c d e f g)) with
          (do r <- get_nodes40 p s; let '(pts, tags, s') := r in Ok (State40 (Some (pts, tags)) b c d e f g, s')) end.
      rewrite <- app_assoc, Hnodes; [unfold nd; rewrite Lp; reflexivity| |exact Hn|apply (proj1 L3)].
      unfold pts. apply Forall_map. eapply Forall_impl; [|apply (v_coords _ W)]. intros x [Hx|Hx]; destruct x as [|? [|? [|? [|]]]]; try discriminate; reflexivity. }
  assert (N : exists names, (forall k, dget k names = dget k (q_names m)) /\
     leads40 (text p (write_physical_names (q_names m)) ++ tail) start40 (fin names)).
  { destruct (v_names _ W) as [N1 N2]. destruct (q_names m) as [|x names] eqn:Em.
    - exists []. split; [reflexivity|]. rewrite (ok_no_names _ _ _ Hp). apply T.
    - destruct (ok_names _ _ _ Hp (x :: names) tail N1 N2 ltac:(discriminate) (proj1 (T []))) as (u & fd' & A & B1 & C & D & _).
      exists fd'. split; [exact D|]. rewrite A, <- app_assoc. eapply leads40_cons; [reflexivity|exact C| |exact (T fd')].
      match goal with |- read_section40 p "PhysicalNames" ?s start40 = _ =>
        change (read_section40 p "PhysicalNames" s start40) with (do r <- get_names p [] s; Ok (State40 (F:=F) None None None (fst r) None [] [], snd r)) end.
      rewrite B1. reflexivity. }
  destruct N as (names & Hnames & L). eexists _, _. split; [reflexivity|].
  unfold read40. rewrite (ok_header _ _ _ Hp "4.0" _ eq_refl (proj1 L)). cbn [bind fst snd].
  change (String.eqb "4.0" "4.0") with true. cbn iota. unfold read_buffer40. rewrite (leads40_read _ _ _ L). unfold fin.
  cbn [bind t_elements t_nodes t_raw t_pdata t_names t_links]. unfold nd. cbn [fst]. unfold el. cbn [e4_cells e4_phys e4_geom].
  assert (Ecd : cell_data_from_raw (map blen (q_cells m)) raw = q_cdata m).
  { unfold cell_data_from_raw, raw. rewrite map_map. apply map_id_in. intros [k d] Hin. cbn [fst snd]. f_equal.
    rewrite Forall_forall in Wc. destruct (Wc _ Hin) as (Hpc & _). cbn [snd] in Hpc. rewrite <- (per_cell_blen _ _ Hpc).
    apply from_raw_to_raw. intros ->. inversion Hpc. congruence. }
  rewrite Ecd, Lp.
  replace (forallb (fun kv => Nat.eqb (length (snd kv)) (length (q_points m))) (q_pdata m)) with true.
  2:{ symmetry. apply forallb_forall. intros kv Hin. rewrite Forall_forall in Wp. destruct (Wp _ Hin) as [E _]. rewrite E. apply Nat.eqb_refl. }
  match goal with |- context [forallb (fun kv => lengths_fit (q_cells m) (snd kv)) ?d] => replace (forallb (fun kv => lengths_fit (q_cells m) (snd kv)) d) with true end.
  2:{ symmetry. apply forallb_forall. intros kv Hin. unfold without in Hin. apply filter_In in Hin. rewrite Forall_forall in Wc.
      destruct (Wc _ (proj1 Hin)) as [E _]. now apply per_cell_fits. }
  cbn [andb]. split; [reflexivity|]. constructor; cbn [o_mesh q_points q_cells q_names q_periodic q_pdata q_cdata o_geom o_phys]; auto.
  unfold without, tag_keys. cbn [e4_phys e4_geom app]. apply filter_ext. intros kv. unfold smem. cbn [existsb]. now rewrite orb_false_r.
Qed.
End File40.
