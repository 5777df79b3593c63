(** Proofs about Model/Tetgen.v. *)
From Verif.Lib Require Import Base Facts Facts2 Text TextFacts Lines LinesFacts BytesFacts Table.
From Verif.Model Require Import Core Off Tetgen.
From Verif.Spec Require Import Core Volume.
From Verif.Proofs Require Import Core Gmsh Gmsh22 Off Ply.
From Coq Require Import Permutation ZifyBool ZifyNat.

Lemma filter_true {A} (f : A -> bool) l : (forall x, In x l -> f x = true) -> filter f l = l.
Proof. induction l as [|x l IH]; intros H; cbn; [reflexivity|]. rewrite H by now left. f_equal. apply IH. intros y Hy. apply H. now right. Qed.
Lemma filter_false {A} (f : A -> bool) l : (forall x, In x l -> f x = false) -> filter f l = [].
Proof. induction l as [|x l IH]; intros H; cbn; [reflexivity|]. rewrite H by now left. apply IH. intros y Hy. apply H. now right. Qed.

Local Notation rename := named.
Lemma rename_map {A} (name : nat -> string) (f : nat -> A) (cols : list A) :
  map f (seq 0 (length cols)) = cols -> map (fun k => (name k, f k)) (seq 0 (length cols)) = rename name cols.
Proof.
  intros H. unfold named. transitivity (combine (map name (seq 0 (length cols))) (map f (seq 0 (length cols)))); [|now rewrite H].
  generalize (seq 0 (length cols)). intros l. induction l as [|k l IH]; cbn; [reflexivity|]. now rewrite IH.
Qed.

(** ** Header lines *)
Lemma header_ok zs : header_ints (row_line (map str_of_Z zs)) = Ok zs.
Proof.
  unfold header_ints, row_line. destruct zs as [|z zs]; [reflexivity|].
  rewrite split_join_char.
  - rewrite filter_true; [apply parse_ints_ok|]. intros s Hs. apply in_map_iff in Hs. destruct Hs as (y & <- & _).
    pose proof (word_str_of_Z y) as W. destruct (str_of_Z y); [discriminate|reflexivity].
  - discriminate.
  - apply forallb_forall. intros s Hs. apply in_map_iff in Hs. destruct Hs as (y & <- & _).
    rewrite char_in_str_of_Z; [reflexivity|reflexivity|discriminate].
Qed.
Lemma off_counts_comment s ls : off_counts (String "#" s :: ls) = off_counts ls.
Proof.
  cbn [off_counts]. replace (startswith (strip (String "#" s)) "#") with true; [now rewrite orb_true_r|].
  unfold strip. cbn [lstrip]. change (is_space "#") with false. cbn iota. cbn [rstrip].
  destruct (rstrip s); [reflexivity|]. unfold startswith. reflexivity.
Qed.
Lemma off_counts_comment_app a s ls : off_counts ((String "#" a ++ s)%string :: ls) = off_counts ls.
Proof. apply off_counts_comment. Qed.
Lemma off_counts_header zs ls : zs <> [] -> off_counts (row_line (map str_of_Z zs) :: ls) = Ok (row_line (map str_of_Z zs), ls).
Proof.
  intros Hne. cbn [off_counts]. pose proof (words_ints zs) as W.
  assert (N : map str_of_Z zs <> []) by (destruct zs; [congruence|discriminate]).
  rewrite blank_row by auto. rewrite strip_row by auto. cbn [orb].
  replace (startswith _ "#") with false; [reflexivity|]. symmetry. destruct zs as [|z zs]; [congruence|].
  cbn [map]. unfold row_line, startswith.
  assert (G : forall r, String.prefix "#" (str_of_Z z ++ r) = false).
  { intros r. pose proof (char_in_str_of_Z "#" z eq_refl ltac:(discriminate)) as C. pose proof (word_str_of_Z z) as V.
    destruct (str_of_Z z) as [|c s]; [discriminate|]. cbn [append String.prefix]. destruct (ascii_dec "#" c) as [<-|]; [discriminate|reflexivity]. }
  destruct zs; cbn [map join String.concat]; [rewrite <- (str_app_nil_r (str_of_Z z))|]; apply G.
Qed.

Lemma enumerate_seq {A B} (f : nat * A -> B) (l : list A) d :
  map f (enumerate l) = map (fun k => f (k, nth k l d)) (seq 0 (length l)).
Proof.
  apply nth_error_ext. intros i. rewrite !nth_error_map.
  destruct (nth_error (enumerate l) i) as [p|] eqn:E.
  - apply nth_error_enumerate in E. destruct E as (x & Hx & ->). assert (i < length l) by (apply nth_error_Some; congruence).
    assert (Es : nth_error (seq 0 (length l)) i = Some i).
    { rewrite (nth_error_nth' _ 0) by (rewrite seq_length; lia). now rewrite seq_nth. }
    rewrite Es. cbn. now rewrite (nth_error_nth _ _ d Hx).
  - apply nth_error_None in E. rewrite enumerate_length in E.
    assert (Es : nth_error (seq 0 (length l)) i = None) by (apply nth_error_None; now rewrite seq_length).
    now rewrite Es.
Qed.

Section TetProofs.
Context {fl : floats}.
Variable marker_fmt : fl -> string.
Variable of_int : Z -> fl.
Variable to_int : fl -> Z.
Variable feqb : fl -> fl -> bool.
Hypothesis fok : floats_ok fl.

(** ** Nodes *)
Definition node_vals (attrs refs : list (list fl)) (kp : nat * list fl) : list fl :=
  of_int (Z.of_nat (fst kp)) :: snd kp ++ row_of fzero attrs (fst kp) ++ row_of fzero refs (fst kp).

Lemma node_rows_ok attrs refs (pts : list (list fl)) n :
  n = length pts -> Forall (fun p => length p = 3) pts ->
  Forall (fun c => length c = n) attrs -> Forall (fun c => length c = n) refs ->
  mapM (node_row marker_fmt attrs refs) (enumerate pts) =
  Ok (map row_line (map (fun kp => str_of_nat (fst kp) :: map ffmt (snd kp ++ row_of fzero attrs (fst kp)) ++
                                map marker_fmt (row_of fzero refs (fst kp))) (enumerate pts))).
Proof.
  intros Hn Hp Ha Hr. rewrite map_map. apply mapM_ok_in. intros [k p] Hin. unfold node_row. cbn [fst snd].
  apply In_nth_error in Hin. destruct Hin as [i Hi]. apply nth_error_enumerate in Hi. destruct Hi as (x & Hx & E). injection E as -> ->.
  assert (i < n) by (subst n; apply nth_error_Some; congruence).
  rewrite (row_at_ok fzero attrs n), (row_at_ok fzero refs n) by auto. cbn [bind].
  rewrite firstn_all2; [reflexivity|]. rewrite Forall_forall in Hp. apply nth_error_In in Hx. rewrite (Hp x Hx). lia.
Qed.

Hypothesis index_ok : forall k, fparse (str_of_Z k) = Some (of_int k).
Hypothesis to_of : to_int (of_int 0) = 0%Z.
Hypothesis feqb_refl : forall v, feqb v v = true.

Theorem node_roundtrip version (m : tet_mesh fl) attrs refs :
  split_marker (tm_point_data m) = (attrs, refs) ->
  tm_points m <> [] -> Forall (fun p => length p = 3) (tm_points m) ->
  Forall (fun kv => length (snd kv) = length (tm_points m)) attrs ->
  Forall (fun kv => length (snd kv) = length (tm_points m) /\
            Forall (fun v => word (marker_fmt v) = true /\ fparse (marker_fmt v) = Some v) (snd kv)) refs ->
  exists file, write_node marker_fmt version m = Ok file /\
    read_node of_int to_int feqb file =
      Ok (0%Z, tm_points m, rename attr_name (map snd attrs) ++ rename ref_name (map snd refs)).
Proof.
  intros Es Hne Hp Ha Hr. unfold write_node. rewrite Es.
  replace (forallb _ (tm_points m)) with true.
  2:{ symmetry. apply forallb_forall. intros p Hi. rewrite Forall_forall in Hp. now apply Nat.eqb_eq, Hp. }
  cbn [negb]. set (pts := tm_points m) in *. set (n := length pts) in *.
  set (A := map snd attrs). set (R := map snd refs).
  assert (HA : Forall (fun c => length c = n) A) by (apply Forall_map; exact Ha).
  assert (HR : Forall (fun c => length c = n) R) by (apply Forall_map; eapply Forall_impl; [|exact Hr]; cbn; tauto).
  rewrite (node_rows_ok A R pts n) by auto. cbn [bind]. eexists. split; [reflexivity|].
  unfold read_node. 
  rewrite off_counts_comment_app.
  match goal with |- context [off_counts (comment_line ?w ?k ++ ?x)] => set (rows := x); replace (off_counts (comment_line w k ++ rows)) with (off_counts rows) end.
  2:{ unfold comment_line. destruct (map fst attrs ++ map fst refs); [reflexivity|]. symmetry. apply off_counts_comment_app. }
  unfold rows. clear rows. set (rows := map (fun kp => _ :: _) (enumerate pts)).
  replace (row_line [str_of_nat n; "3"; str_of_nat (length attrs); str_of_nat (length refs)])
    with (row_line (map str_of_Z [Z.of_nat n; 3; Z.of_nat (length A); Z.of_nat (length R)]%Z)).
  2:{ cbn [map]. rewrite !str_of_nat_Z. unfold A, R. rewrite !map_length. reflexivity. }
  rewrite off_counts_header by discriminate. cbn [bind fst snd]. rewrite header_ok. cbn [bind].
  change (3 =? 3)%Z with true. cbn [negb].
  replace ((Z.of_nat n <? 0)%Z || (Z.of_nat (length A) <? 0)%Z || (Z.of_nat (length R) <? 0)%Z) with false by lia.
  rewrite !Nat2Z.id. set (w := 4 + length A + length R).
  assert (Lrows : Forall (fun r => length r = w) rows).
  { unfold rows. apply Forall_map, Forall_forall. intros [k p] Hin. cbn [fst snd].
    assert (length p = 3). { apply in_combine_r in Hin. rewrite Forall_forall in Hp. now apply Hp. }
    cbn [length]. rewrite app_length, !map_length, app_length, !row_of_length. unfold w. lia. }
  assert (Wref : forall k v, In v (row_of fzero R k) -> k < n -> word (marker_fmt v) = true /\ fparse (marker_fmt v) = Some v).
  { intros k v Hv Hk. unfold row_of in Hv. apply in_map_iff in Hv. destruct Hv as (c & <- & Hc). unfold R in Hc.
    apply in_map_iff in Hc. destruct Hc as (kv & <- & Hkv). rewrite Forall_forall in Hr. destruct (Hr kv Hkv) as [Hl Hf].
    rewrite Forall_forall in Hf. apply Hf. apply nth_In. lia. }
  assert (Klt : forall kp, In kp (enumerate pts) -> fst kp < n).
  { intros [k p] Hin. apply in_combine_l in Hin. apply in_seq in Hin. cbn. unfold n. lia. }
  rewrite <- (app_nil_r (map row_line rows)), (take_rows rows []).
  2:{ apply solid_nil. }
  2:{ unfold rows. apply Forall_map, Forall_forall. intros kp Hin. split; [|discriminate]. cbn [forallb].
      rewrite word_str_of_nat, forallb_app, words_floats by auto. cbn [andb]. apply forallb_forall. intros s Hs.
      apply in_map_iff in Hs. destruct Hs as (v & <- & Hv). apply (Wref (fst kp)); auto. }
  2:{ rewrite (concat_uniform_length w) by auto. unfold rows. now rewrite map_length, enumerate_length. }
  cbn [of_option bind fst snd].
  assert (Ep : parse_floats (concat rows) = Ok (concat (map (node_vals A R) (enumerate pts)))).
  { unfold rows. clear - fok index_ok Wref Klt. induction (enumerate pts) as [|[k p] l IH]; [reflexivity|].
    cbn [map concat]. unfold parse_floats in *.
    assert (Ek : k < n) by (apply (Klt (k, p)); now left).
    assert (E1 : mapM (fun t => of_option ValueError (@fparse fl t)) (str_of_nat (fst (k, p)) :: map ffmt (snd (k, p) ++ row_of fzero A (fst (k, p))) ++
                   map marker_fmt (row_of fzero R (fst (k, p)))) = Ok (node_vals A R (k, p))).
    { cbn [mapM fst snd]. rewrite str_of_nat_Z, index_ok. cbn [of_option bind]. unfold node_vals. cbn [fst snd].
      rewrite app_assoc. erewrite mapM_app; [|apply (parse_floats_ok _ fok)|].
      - reflexivity.
      - specialize (Wref k). clear - Wref Ek. induction (row_of fzero R k) as [|v l IH]; [reflexivity|]. cbn [map mapM].
        destruct (Wref v (or_introl eq_refl) Ek) as [_ ->]. cbn [of_option bind]. rewrite IH; [reflexivity|].
        intros u Hu. apply Wref. now right. }
    erewrite mapM_app; [reflexivity|exact E1|]. apply IH. intros kp Hin. apply Klt. now right. }
  rewrite Ep. cbn [bind]. rewrite chunks_concat.
  2:{ unfold w. lia. }
  2:{ apply Forall_map, Forall_forall. intros [k p] Hin. cbn [fst snd].
      assert (length p = 3). { apply in_combine_r in Hin. rewrite Forall_forall in Hp. now apply Hp. }
      unfold node_vals. cbn [length fst snd]. rewrite !app_length, !row_of_length. unfold w. lia. }
  destruct (map (node_vals A R) (enumerate pts)) as [|r0 rs] eqn:Er.
  { exfalso. apply Hne. apply length_zero_iff_nil. apply (f_equal (@length _)) in Er. rewrite map_length, enumerate_length in Er. exact Er. }
  assert (E0 : nth 0 r0 fzero = of_int 0).
  { destruct pts as [|p0 pts']; [congruence|]. cbn in Er. injection Er as <- _. reflexivity. }
  rewrite E0, to_of, <- Er. replace (forallb _ _) with true.
  2:{ symmetry. apply forallb_forall. intros [i r] Hin. apply In_nth_error in Hin. destruct Hin as [j Hj].
      apply nth_error_enumerate in Hj. destruct Hj as (x & Hx & E). injection E as -> ->. rewrite nth_error_map in Hx.
      destruct (nth_error (enumerate pts) j) as [kp|] eqn:Ekp; [|discriminate]. injection Hx as <-.
      apply nth_error_enumerate in Ekp. destruct Ekp as (y & Hy & ->). cbn [fst snd node_vals nth].
      rewrite Z.add_0_l. apply feqb_refl. }
  cbn [negb]. f_equal. f_equal; [f_equal|].
  - rewrite map_map. rewrite (map_ext_in _ (fun kp => snd kp)).
    + apply enumerate_snd.
    + intros [k p] Hin. assert (length p = 3). { apply in_combine_r in Hin. rewrite Forall_forall in Hp. now apply Hp. }
      unfold node_vals. cbn [skipn fst snd]. rewrite firstn_app, H, firstn_all2 by lia. cbn [Nat.sub firstn]. now rewrite app_nil_r.
  - assert (EV : map (node_vals A R) (enumerate pts) =
                 map (fun k => (of_int (Z.of_nat k) :: nth k pts []) ++ row_of fzero (A ++ R) k) (seq 0 n)).
    { rewrite (enumerate_seq _ pts []). apply map_ext. intros k. unfold node_vals, row_of. cbn [fst snd app]. now rewrite map_app. }
    assert (LP : forall k, k < n -> length (nth k pts []) = 3).
    { intros k Hk. rewrite Forall_forall in Hp. apply Hp, nth_In. exact Hk. }
    assert (EC : forall j c, nth_error (A ++ R) j = Some c ->
              column fzero (4 + j) (map (node_vals A R) (enumerate pts)) = c).
    { intros j c Hj. rewrite EV. rewrite <- (column_rows fzero (A ++ R) n j c) by (auto; now apply Forall_app).
      unfold column. rewrite !map_map. apply map_ext_in. intros k Hk. apply in_seq in Hk.
      rewrite app_nth2; cbn [length]; rewrite LP by lia; [|lia]. f_equal. lia. }
    f_equal.
    + apply rename_map. rewrite <- (map_nth_seq [] A) at 2. apply map_ext_in. intros j Hj. apply in_seq in Hj.
      apply EC. rewrite nth_error_app1 by lia. apply nth_error_nth'. lia.
    + apply rename_map. rewrite <- (map_nth_seq [] R) at 2. apply map_ext_in. intros j Hj. apply in_seq in Hj.
      replace (4 + length A + j) with (4 + (length A + j)) by lia. apply EC. rewrite nth_error_app2 by lia.
      replace (length A + j - length A) with j by lia. apply nth_error_nth'. lia.
Qed.

End TetProofs.

(** ** Cells *)
Definition ele_vals (attrs : list (list Z)) (kc : nat * cell) : list Z :=
  Z.of_nat (fst kc) :: snd kc ++ row_of 0%Z attrs (fst kc).

Theorem ele_roundtrip {fl : floats} version (m : tet_mesh fl) rows rest attrs :
  tm_cells m = Block "tetra" rows :: rest -> Forall (fun b => btype b <> "tetra") rest ->
  Forall (fun c => length c = 4) rows ->
  marker_first (tm_cell_data m) = attrs ->
  Forall (fun kv => match snd kv with col :: _ => length col = length rows | [] => False end) attrs ->
  exists file, write_ele version m = Ok file /\
    read_ele 0 file = Ok (rows, rename ref_name (map (fun kv => [hd [] (snd kv)]) attrs)).
Proof.
  intros Hc Hrest Hr4 Hm Ha. unfold write_ele. rewrite Hm, Hc. cbn [filter btype]. change (String.eqb "tetra" "tetra") with true. cbn iota.
  replace (filter _ rest) with (@nil block).
  2:{ clear - Hrest. induction Hrest as [|b l Hb H IH]; [reflexivity|]. cbn. destruct (String.eqb_spec (btype b) "tetra"); [congruence|auto]. }
  change (enumerate [Block "tetra" rows]) with [(0, Block "tetra" rows)]. cbn [mapM ele_block bdata].
  set (A := map (fun kv => hd [] (snd kv)) attrs). set (n := length rows).
  assert (HA : Forall (fun c => length c = n) A).
  { unfold A. apply Forall_map. eapply Forall_impl; [|exact Ha]. intros [k [|c l]]; cbn; tauto. }
  assert (EA : mapM (fun kv => of_option IndexError (nth_error (snd kv) 0)) attrs = Ok A).
  { unfold A. apply mapM_ok_in. intros [k [|c l]] Hin; cbn; [|reflexivity]. rewrite Forall_forall in Ha. destruct (Ha _ Hin). }
  set (toks := map (fun kc => map str_of_Z (ele_vals A kc)) (enumerate rows)).
  assert (ER1 : mapM (ele_row A) (enumerate rows) = Ok (map row_line toks)).
  { unfold toks. rewrite map_map. apply mapM_ok_in. intros [k c] Hin. unfold ele_row. cbn [fst snd].
    assert (k < n). { apply in_combine_l in Hin. apply in_seq in Hin. unfold n. lia. }
    assert (length c = 4). { apply in_combine_r in Hin. rewrite Forall_forall in Hr4. now apply Hr4. }
    rewrite (row_at_ok 0%Z A n) by auto. cbn [bind]. rewrite firstn_all2 by lia. unfold ele_vals. cbn [map fst snd]. now rewrite str_of_nat_Z. }
  assert (ET : toks = map (map str_of_Z) (map (ele_vals A) (enumerate rows))) by (unfold toks; now rewrite map_map).
  assert (ER : (do cols <- (match rows with [] => Ok [] | _ => mapM (fun kv => of_option IndexError (nth_error (snd kv) 0)) attrs end);
                mapM (ele_row cols) (enumerate rows)) = Ok (map row_line toks)).
  { clear - ER1 EA. clearbody toks. destruct rows as [|r0 rows0]; [exact ER1|]. rewrite EA. exact ER1. }
  assert (EB : (do cols <- (match rows with [] => Ok [] | _ => mapM (fun kv => of_option IndexError (nth_error (snd kv) 0)) attrs end);
                do rows1 <- mapM (ele_row cols) (enumerate rows);
                Ok (row_line [str_of_nat (blen (Block "tetra" rows)); "4"; str_of_nat (length attrs)] :: rows1)) =
               Ok (row_line (map str_of_Z [Z.of_nat n; 4; Z.of_nat (length A)]%Z) :: map row_line toks)).
  { destruct (match rows with [] => Ok [] | _ => _ end) as [cols|] eqn:Ecols; [|discriminate ER]. cbn [bind] in *. rewrite ER. cbn [bind map].
    rewrite !str_of_nat_Z. unfold A. rewrite map_length. reflexivity. }
  rewrite EB. cbn [bind concat]. rewrite app_nil_r. eexists. split; [reflexivity|].
  unfold read_ele. rewrite off_counts_comment_app.
  match goal with |- context [off_counts (comment_line ?w ?k ++ ?x)] => set (tail := x); replace (off_counts (comment_line w k ++ tail)) with (off_counts tail) end.
  2:{ unfold comment_line. destruct (map fst attrs); [reflexivity|]. symmetry. apply off_counts_comment_app. }
  unfold tail. rewrite off_counts_header by discriminate. cbn [bind fst snd]. rewrite header_ok. cbn [bind].
  change (4 =? 4)%Z with true. cbn [negb].
  replace ((Z.of_nat n <? 0)%Z || (Z.of_nat (length A) <? 0)%Z) with false by lia. rewrite !Nat2Z.id.
  assert (LV : Forall (fun r => length r = 5 + length A) (map (ele_vals A) (enumerate rows))).
  { apply Forall_map, Forall_forall. intros [k c] Hin.
    assert (length c = 4). { apply in_combine_r in Hin. rewrite Forall_forall in Hr4. now apply Hr4. }
    unfold ele_vals. cbn [length fst snd]. rewrite app_length, row_of_length. lia. }
  rewrite ET, <- (app_nil_r (map row_line _)), take_rows.
  2:{ apply solid_nil. }
  2:{ apply (words_good _ (5 + length A)); auto; [apply word_str_of_Z|lia]. }
  2:{ rewrite concat_map_map, map_length, (concat_uniform_length (5 + length A)) by auto. rewrite map_length, enumerate_length. reflexivity. }
  cbn [of_option bind fst snd]. rewrite concat_map_map, parse_ints_ok. cbn [bind]. rewrite chunks_concat by (auto; lia).
  f_equal. f_equal.
  - rewrite map_map. rewrite (map_ext_in _ (fun kp => snd kp)).
    + apply enumerate_snd.
    + intros [k p] Hin. assert (length p = 4). { apply in_combine_r in Hin. rewrite Forall_forall in Hr4. now apply Hr4. }
      unfold ele_vals. cbn [skipn fst snd]. rewrite firstn_app, H, firstn_all2 by lia. cbn [Nat.sub firstn]. rewrite app_nil_r.
      rewrite <- (map_id p) at 2. apply map_ext. intros. lia.
  - assert (EV : map (ele_vals A) (enumerate rows) =
                 map (fun k => (Z.of_nat k :: nth k rows []) ++ row_of 0%Z A k) (seq 0 n)).
    { rewrite (enumerate_seq _ rows []). reflexivity. }
    assert (LP : forall k, k < n -> length (nth k rows []) = 4).
    { intros k Hk. rewrite Forall_forall in Hr4. apply Hr4, nth_In. exact Hk. }
    assert (EC : forall j c, nth_error A j = Some c ->
              column 0%Z (5 + j) (map (ele_vals A) (enumerate rows)) = c).
    { intros j c Hj. rewrite EV. rewrite <- (column_rows 0%Z A n j c) by auto.
      unfold column. rewrite !map_map. apply map_ext_in. intros k Hk. apply in_seq in Hk.
      rewrite app_nth2; cbn [length]; rewrite LP by lia; [|lia]. f_equal. lia. }
    replace (map (fun kv => [hd [] (snd kv)]) attrs) with (map (fun c : list Z => [c]) A) by (unfold A; now rewrite map_map).
    rewrite <- (map_length (fun c : list Z => [c]) A). apply rename_map. rewrite map_length.
    transitivity (map (fun c : list Z => [c]) (map (fun k => nth k A []) (seq 0 (length A)))); [|now rewrite map_nth_seq].
    rewrite map_map. apply map_ext_in. intros j Hj. apply in_seq in Hj.
    f_equal. apply EC. apply nth_error_nth'. lia.
Qed.

(** ** Names *)
Lemma contains_none c sub s : char_in c s = false -> contains (String c sub) s = false.
Proof.
  induction s as [|a s IH]; [reflexivity|]. cbn [char_in contains String.prefix]. intros H. apply orb_false_iff in H. destruct H as [H1 H2].
  rewrite IH by auto. destruct (ascii_dec c a) as [->|]; [|reflexivity]. now rewrite Ascii.eqb_refl in H1.
Qed.
Lemma attr_name_plain k : contains ":ref" (attr_name k) = false.
Proof.
  unfold attr_name. rewrite str_of_nat_Z.
  assert (E : contains ":ref" (str_of_Z (Z.of_nat (k + 1))) = false) by (apply contains_none, char_in_str_of_Z; [reflexivity|discriminate]).
  cbn [append contains String.prefix]. rewrite E.
  repeat (match goal with |- context [ascii_dec ?a ?b] => destruct (ascii_dec a b); [discriminate|] end). 
  cbn. repeat (match goal with |- context [ascii_dec ?a ?b] => destruct (ascii_dec a b); [discriminate|] end). reflexivity.
Qed.
Lemma ref_name_ref k : contains ":ref" (ref_name k) = true.
Proof. unfold ref_name. generalize (if Nat.eqb k 0 then "" else str_of_nat (k + 1)). intros s. cbn. now destruct s. Qed.
Lemma ref_name_S k : ref_name (S k) <> "tetgen:ref".
Proof.
  unfold ref_name. cbn [Nat.eqb]. pose proof (word_str_of_nat (S k + 1)) as W. destruct (str_of_nat (S k + 1)); [discriminate|].
  discriminate.
Qed.
Lemma attr_name_ref k : attr_name k <> "tetgen:ref".
Proof. intros E. pose proof (attr_name_plain k) as H. rewrite E in H. discriminate. Qed.

Lemma rename_In {A} name (cols : list A) kv : In kv (rename name cols) -> exists k, k < length cols /\ fst kv = name k.
Proof.
  unfold named. destruct kv as [s a]. intros H. apply in_combine_l in H. apply in_map_iff in H. destruct H as (k & <- & H).
  apply in_seq in H. exists k. split; [lia|reflexivity].
Qed.
Lemma rename_snd {A} name (cols : list A) : map snd (rename name cols) = cols.
Proof. unfold named. apply map_snd_combine. now rewrite map_length, seq_length. Qed.

Lemma split_marker_names {A} (attrs : list A) r :
  split_marker (rename attr_name attrs ++ [("tetgen:ref", r)]) = (rename attr_name attrs, [("tetgen:ref", r)]).
Proof.
  unfold split_marker. rewrite filter_app. cbn [filter fst]. change (contains ":ref" "tetgen:ref") with true. cbn iota.
  rewrite (filter_false _ (rename attr_name attrs)).
  2:{ intros kv H. apply rename_In in H. destruct H as (k & _ & ->). apply attr_name_plain. }
  cbn [app]. rewrite filter_app. cbn [filter fst]. change (String.eqb "tetgen:ref" "tetgen:ref") with true. cbn [negb].
  rewrite app_nil_r, filter_true; [reflexivity|].
  intros kv H. apply rename_In in H. destruct H as (k & _ & ->). cbn. destruct (String.eqb_spec (attr_name k) "tetgen:ref") as [E|E]; [|reflexivity].
  now apply attr_name_ref in E.
Qed.
Lemma marker_first_names {A} (cols : list A) : marker_first (rename ref_name cols) = rename ref_name cols.
Proof.
  unfold marker_first. rewrite filter_true by (intros kv H; apply rename_In in H; destruct H as (k & _ & ->); apply ref_name_ref).
  destruct (rename ref_name cols) as [|r l] eqn:E; [reflexivity|]. f_equal.
  destruct cols as [|c cols]; [discriminate|]. unfold named in E. cbn [length seq map combine] in E. injection E as <- E.
  cbn [filter fst]. rewrite String.eqb_refl. cbn [negb]. rewrite filter_true; [reflexivity|]. intros [s a] H. rewrite <- E in H.
  apply in_combine_l in H. apply in_map_iff in H. destruct H as (k & <- & H). apply in_seq in H. cbn [fst].
  destruct k as [|k]; [lia|]. destruct (String.eqb_spec (ref_name (S k)) (ref_name 0)) as [E'|E']; [|reflexivity].
  now apply ref_name_S in E'.
Qed.
Lemma split_marker_perm {A} (d : dict A) attrs refs : NoDup (dkeys d) -> split_marker d = (attrs, refs) ->
  Permutation (attrs ++ refs) d /\ length refs <= 1.
Proof.
  unfold split_marker. intros N. destruct (filter (fun kv => contains ":ref" (fst kv)) d) as [|r l] eqn:E.
  - destruct d as [|kv d]; intros [= <- <-]; [split; [constructor|cbn; lia]|]. split; [|cbn; lia].
    rewrite Permutation_app_comm. reflexivity.
  - intros [= <- <-]. split; [|cbn; lia].
    assert (Hr : In r d) by (apply (proj1 (filter_In (fun kv => contains ":ref" (fst kv)) r d)); rewrite E; now left).
    clear E l. rewrite Permutation_app_comm. cbn [app]. induction d as [|kv d IH]; [destruct Hr|].
    unfold dkeys in *. cbn [map] in N. inversion N as [|? ? Hk N']; subst. cbn [filter]. destruct Hr as [->|Hr].
    + rewrite String.eqb_refl. cbn [negb]. apply perm_skip. rewrite filter_true; [reflexivity|]. intros x Hx.
      destruct (String.eqb_spec (fst x) (fst r)) as [Ex|]; [|reflexivity]. exfalso. apply Hk. rewrite <- Ex. now apply in_map.
    + destruct (String.eqb_spec (fst kv) (fst r)) as [Ex|]; [exfalso; apply Hk; rewrite Ex; now apply in_map|]. cbn [negb].
      rewrite perm_swap. apply perm_skip. now apply IH.
Qed.

Lemma attr_name_spec k : attr_name k = tetgen_attr k.
Proof. unfold attr_name, tetgen_attr. now rewrite Nat.add_1_r. Qed.
Lemma ref_name_spec k : ref_name k = tetgen_ref k.
Proof. unfold ref_name, tetgen_ref. destruct k; [reflexivity|]. cbn [Nat.eqb]. now rewrite Nat.add_1_r. Qed.
Lemma named_ext {A} n1 n2 (cols : list A) : (forall k, n1 k = n2 k) -> named n1 cols = named n2 cols.
Proof. intros H. unfold named. f_equal. now apply map_ext. Qed.

Section TetWhole.
Context {fl : floats}.
Variable marker_fmt : fl -> string.
Variable of_int : Z -> fl.
Variable to_int : fl -> Z.
Variable feqb : fl -> fl -> bool.
Hypothesis fok : floats_ok fl.
Hypothesis marker_ok : forall v, word (marker_fmt v) = true /\ fparse (marker_fmt v) = Some v.
Hypothesis index_ok : forall k, fparse (str_of_Z k) = Some (of_int k).
Hypothesis to_of : to_int (of_int 0) = 0%Z.
Hypothesis feqb_refl : forall v, feqb v v = true.

Lemma tetgen_whole version (pts : list (list fl)) rows rest pd cd attrs refs cattrs :
  pts <> [] -> Forall (fun p => length p = 3) pts ->
  Forall (fun c => length c = 4) rows -> Forall (fun b => btype b <> "tetra") rest ->
  split_marker pd = (attrs, refs) -> Forall (fun kv => length (snd kv) = length pts) (attrs ++ refs) ->
  marker_first cd = cattrs -> Forall (fun kv => match snd kv with col :: _ => length col = length rows | [] => False end) cattrs ->
  exists files, write_tetgen marker_fmt version (TetMesh pts (Block "tetra" rows :: rest) pd cd) = Ok files /\
    read_tetgen of_int to_int feqb files =
      Ok (TetMesh pts [Block "tetra" rows] (named tetgen_attr (map snd attrs) ++ named tetgen_ref (map snd refs))
            (named tetgen_ref (map (fun kv => [hd [] (snd kv)]) cattrs))).
Proof.
  intros Hne Hp Hr Hrest Es Hl Em Hc. apply Forall_app in Hl. destruct Hl as [Hl1 Hl2].
  destruct (node_roundtrip marker_fmt of_int to_int feqb fok index_ok to_of feqb_refl version (TetMesh pts (Block "tetra" rows :: rest) pd cd) attrs refs)
    as (f1 & E1 & R1); auto.
  { eapply Forall_impl; [|exact Hl2]. cbn. intros kv H. split; [exact H|]. apply Forall_forall. intros v _. apply marker_ok. }
  destruct (ele_roundtrip version (TetMesh pts (Block "tetra" rows :: rest) pd cd) rows rest cattrs) as (f2 & E2 & R2); auto.
  exists (f1, f2). unfold write_tetgen, read_tetgen. rewrite E1, E2. cbn [bind fst snd]. split; [reflexivity|].
  rewrite R1. cbn [bind]. rewrite R2. cbn [bind fst snd tm_points].
  now rewrite (named_ext _ _ _ attr_name_spec), !(named_ext _ _ _ ref_name_spec).
Qed.

Theorem tetgen_roundtrip version (pts : list (list fl)) rows rest attrs marker (cols : list (list Z)) pd :
  pts <> [] -> Forall (fun p => length p = 3) pts ->
  Forall (fun c => length c = 4) rows -> Forall (fun b => btype b <> "tetra") rest ->
  (pd = [] \/
   pd = named tetgen_attr attrs ++ [("tetgen:ref", marker)] /\
   Forall (fun c => length c = length pts) attrs /\ length marker = length pts) ->
  Forall (fun c => length c = length rows) cols ->
  exists files,
    write_tetgen marker_fmt version (TetMesh pts (Block "tetra" rows :: rest) pd (named tetgen_ref (map (fun c => [c]) cols))) = Ok files /\
    read_tetgen of_int to_int feqb files =
      Ok (TetMesh pts [Block "tetra" rows] pd (named tetgen_ref (map (fun c => [c]) cols))).
Proof.
  intros Hne Hp Hr Hrest Hpd Hc.
  set (cd := named tetgen_ref (map (fun c => [c]) cols)).
  assert (Em : marker_first cd = cd).
  { unfold cd. rewrite <- (named_ext _ _ _ ref_name_spec). apply marker_first_names. }
  assert (Ecd : map snd cd = map (fun c => [c]) cols) by apply rename_snd.
  assert (Hcd : Forall (fun kv => match snd kv with col :: _ => length col = length rows | [] => False end) cd).
  { apply (proj1 (Forall_map snd (fun v => match v with col :: _ => length col = length rows | [] => False end) cd)).
    rewrite Ecd. apply Forall_map. exact Hc. }
  assert (Eback : named tetgen_ref (map (fun kv => [hd [] (snd kv)]) cd) = cd).
  { rewrite <- (map_map snd (fun v => [hd [] v])), Ecd, map_map. reflexivity. }
  destruct Hpd as [-> | (-> & Ha & Hm)].
  - destruct (tetgen_whole version pts rows rest [] cd [] [] cd) as (f & E & R); auto; [constructor|]. exists f. split; [exact E|].
    rewrite R, Eback. reflexivity.
  - assert (Es : split_marker (named tetgen_attr attrs ++ [("tetgen:ref", marker)]) = (named tetgen_attr attrs, [("tetgen:ref", marker)])).
    { rewrite <- (named_ext _ _ _ attr_name_spec). apply split_marker_names. }
    destruct (tetgen_whole version pts rows rest _ cd _ _ cd Hne Hp Hr Hrest Es) as (f & E & R); auto.
    { apply Forall_app. split; [|repeat constructor; exact Hm].
      apply (proj1 (Forall_map snd (fun c => length c = length pts) (named tetgen_attr attrs))). now rewrite rename_snd. }
    exists f. split; [exact E|]. rewrite R, Eback, rename_snd. reflexivity.
Qed.

Lemma marker_first_perm {A} (d : dict A) : NoDup (dkeys d) -> Permutation (marker_first d) d.
Proof.
  intros N. unfold marker_first. destruct (split_marker d) as [a r] eqn:E. pose proof (split_marker_perm d a r N E) as [P _].
  unfold split_marker in E. destruct (filter _ d) as [|x l]; [reflexivity|]. injection E as <- <-.
  now rewrite Permutation_app_comm in P.
Qed.

Theorem tetgen_arrays version (pts : list (list fl)) rows rest (pd : dict (list fl)) (cd : dict (list (list Z))) :
  pts <> [] -> Forall (fun p => length p = 3) pts ->
  Forall (fun c => length c = 4) rows -> Forall (fun b => btype b <> "tetra") rest ->
  NoDup (map fst pd) -> Forall (fun kv => length (snd kv) = length pts) pd ->
  NoDup (map fst cd) -> Forall (fun kv => exists col more, snd kv = col :: more /\ length col = length rows) cd ->
  exists files pd' cd' attrs markers refs,
    write_tetgen marker_fmt version (TetMesh pts (Block "tetra" rows :: rest) pd cd) = Ok files /\
    read_tetgen of_int to_int feqb files = Ok (TetMesh pts [Block "tetra" rows] pd' cd') /\
    pd' = named tetgen_attr attrs ++ named tetgen_ref markers /\
    Permutation (attrs ++ markers) (map snd pd) /\ length markers = Nat.min 1 (length pd) /\
    cd' = named tetgen_ref refs /\ Permutation refs (map (fun kv => [hd [] (snd kv)]) cd).
Proof.
  intros Hne Hp Hr Hrest Npd Hpd Ncd Hcd. destruct (split_marker pd) as [attrs refs] eqn:Es.
  destruct (split_marker_perm pd attrs refs Npd Es) as [P _].
  pose proof (marker_first_perm cd Ncd) as Pc.
  destruct (tetgen_whole version pts rows rest pd cd attrs refs (marker_first cd) Hne Hp Hr Hrest Es) as (f & E & R); auto.
  { apply Forall_forall. intros kv Hin. rewrite Forall_forall in Hpd. apply Hpd. now apply (Permutation_in _ P). }
  { apply Forall_forall. intros kv Hin. rewrite Forall_forall in Hcd. destruct (Hcd kv) as (c & l & -> & H); [|exact H].
    now apply (Permutation_in _ Pc). }
  eexists f, _, _, (map snd attrs), (map snd refs), (map (fun kv => [hd [] (snd kv)]) (marker_first cd)).
  split; [exact E|]. split; [exact R|]. split; [reflexivity|]. split; [rewrite <- map_app; now apply Permutation_map|].
  split; [|split; [reflexivity|now apply Permutation_map]].
  unfold split_marker in Es. destruct (filter _ pd) as [|x l] eqn:Ef.
  - destruct pd; injection Es as <- <-; reflexivity.
  - injection Es as <- <-. destruct pd; [discriminate|]. reflexivity.
Qed.
End TetWhole.

(** ** Any index base *)
Theorem tetgen_base {fl : floats} (of_int : Z -> fl) (to_int : fl -> Z) (feqb : fl -> fl -> bool) (fok : floats_ok fl) base (pts : list (list fl)) rows :
  (forall k, fparse (str_of_Z k) = Some (of_int k)) -> (forall v, feqb v v = true) -> to_int (of_int base) = base ->
  pts <> [] -> Forall (fun p => length p = 3) pts -> Forall (fun c => length c = 4) rows ->
  read_tetgen of_int to_int feqb
    (row_line (map str_of_Z [Z.of_nat (length pts); 3; 0; 0]%Z) ::
       map (fun kp => row_line (str_of_Z (base + Z.of_nat (fst kp)) :: map ffmt (snd kp))) (enumerate pts),
     row_line (map str_of_Z [Z.of_nat (length rows); 4; 0]%Z) ::
       map (fun kc => row_line (map str_of_Z (base + Z.of_nat (fst kc) :: map (fun i => i + base) (snd kc))%Z)) (enumerate rows)) =
  Ok (TetMesh pts [Block "tetra" rows] [] []).
Proof.
  intros Hi Hq Hb Hne Hp Hr. unfold read_tetgen. cbn [fst snd].
  set (vals := map (fun kp : nat * list fl => of_int (base + Z.of_nat (fst kp))%Z :: snd kp) (enumerate pts)).
  set (toks := map (fun kp : nat * list fl => str_of_Z (base + Z.of_nat (fst kp)) :: map ffmt (snd kp)) (enumerate pts)).
  assert (Lp : forall kp, In kp (enumerate pts) -> length (snd kp) = 3).
  { intros [k p] Hin. apply in_combine_r in Hin. rewrite Forall_forall in Hp. now apply Hp. }
  assert (En : read_node of_int to_int feqb (row_line (map str_of_Z [Z.of_nat (length pts); 3; 0; 0]%Z) ::
       map (fun kp => row_line (str_of_Z (base + Z.of_nat (fst kp)) :: map ffmt (snd kp))) (enumerate pts)) = Ok (base, pts, [])).
  { unfold read_node. rewrite off_counts_header by discriminate. cbn [bind fst snd]. rewrite header_ok. cbn [bind]. change (3 =? 3)%Z with true. cbn [negb].
    replace ((Z.of_nat (length pts) <? 0)%Z || (0 <? 0)%Z || (0 <? 0)%Z) with false by lia. rewrite Nat2Z.id. change (Z.to_nat 0) with 0. cbn [Nat.add].
    replace (map (fun kp : nat * list fl => row_line (str_of_Z (base + Z.of_nat (fst kp)) :: map ffmt (snd kp))) (enumerate pts)) with (map row_line toks ++ []) by (unfold toks; now rewrite map_map, app_nil_r).
    rewrite (take_rows toks []).
    2:{ apply solid_nil. }
    2:{ unfold toks. apply Forall_map, Forall_forall. intros kp _. split; [|discriminate]. cbn [forallb]. now rewrite word_str_of_Z, words_floats. }
    2:{ rewrite (concat_uniform_length 4); [unfold toks; now rewrite map_length, enumerate_length|].
        unfold toks. apply Forall_map, Forall_forall. intros kp Hin. cbn [length]. rewrite map_length, (Lp kp Hin). reflexivity. }
    cbn [of_option bind fst snd].
    assert (Ep : parse_floats (concat toks) = Ok (concat vals)).
    { unfold toks, vals, parse_floats. clear - Hi fok. induction (enumerate pts) as [|kp l IH]; [reflexivity|]. cbn [map concat].
      erewrite mapM_app; [reflexivity| |exact IH]. cbn [mapM]. rewrite Hi. cbn [of_option bind]. pose proof (parse_floats_ok (snd kp) fok) as Pf. unfold parse_floats in Pf. now rewrite Pf. }
    rewrite Ep. cbn [bind]. rewrite chunks_concat.
    2:{ lia. }
    2:{ unfold vals. apply Forall_map, Forall_forall. intros kp Hin. cbn [length]. now rewrite (Lp kp Hin). }
    destruct vals as [|r0 rs] eqn:Ev.
    { exfalso. apply Hne. apply length_zero_iff_nil. apply (f_equal (@length _)) in Ev. unfold vals in Ev. rewrite map_length, enumerate_length in Ev. exact Ev. }
    assert (E0 : nth 0 r0 fzero = of_int base).
    { unfold vals in Ev. destruct pts as [|p0 pts']; [congruence|]. cbn in Ev. injection Ev as <- _. cbn. f_equal. lia. }
    rewrite E0, Hb, <- Ev. unfold vals. replace (forallb _ _) with true.
    2:{ symmetry. apply forallb_forall. intros [i r] Hin. apply In_nth_error in Hin. destruct Hin as [j Hj].
        apply nth_error_enumerate in Hj. destruct Hj as (x & Hx & E). injection E as -> ->. rewrite nth_error_map in Hx.
        destruct (nth_error (enumerate pts) j) as [kp|] eqn:Ekp; [|discriminate]. injection Hx as <-.
        apply nth_error_enumerate in Ekp. destruct Ekp as (y & Hy & ->). cbn [fst snd nth]. apply Hq. }
    cbn [negb seq map app]. f_equal. f_equal. f_equal. rewrite map_map. rewrite (map_ext_in _ (fun kp => snd kp)); [apply enumerate_snd|].
    intros kp Hin. cbn [skipn]. apply firstn_all2. rewrite (Lp kp Hin). lia. }
  rewrite En. cbn [bind].
  set (zs := map (fun kc : nat * cell => (base + Z.of_nat (fst kc) :: map (fun i => i + base) (snd kc))%Z) (enumerate rows)).
  assert (Lr : forall kc, In kc (enumerate rows) -> length (snd kc) = 4).
  { intros [k p] Hin. apply in_combine_r in Hin. rewrite Forall_forall in Hr. now apply Hr. }
  assert (Lz : Forall (fun r => length r = 5) zs).
  { unfold zs. apply Forall_map, Forall_forall. intros kc Hin. cbn [length]. now rewrite map_length, (Lr kc Hin). }
  unfold read_ele. rewrite off_counts_header by discriminate. cbn [bind fst snd]. rewrite header_ok. cbn [bind]. change (4 =? 4)%Z with true. cbn [negb].
  replace ((Z.of_nat (length rows) <? 0)%Z || (0 <? 0)%Z) with false by lia. rewrite Nat2Z.id. change (Z.to_nat 0) with 0. cbn [Nat.add].
  replace (map (fun kc : nat * cell => row_line (map str_of_Z (base + Z.of_nat (fst kc) :: map (fun i => i + base) (snd kc))%Z)) (enumerate rows)) with (map row_line (map (map str_of_Z) zs) ++ []) by (unfold zs; now rewrite !map_map, app_nil_r).
  rewrite take_rows.
  2:{ apply solid_nil. }
  2:{ apply (words_good _ 5); auto; try lia; apply word_str_of_Z. }
  2:{ rewrite concat_map_map, map_length, (concat_uniform_length 5) by auto. unfold zs. rewrite map_length, enumerate_length. reflexivity. }
  cbn [of_option bind fst snd]. rewrite concat_map_map, parse_ints_ok. cbn [bind]. rewrite chunks_concat by (auto; lia).
  cbn [seq map bind fst snd]. do 3 f_equal. f_equal. unfold zs. rewrite map_map. rewrite (map_ext_in _ (fun kc => snd kc)); [apply enumerate_snd|].
  intros kc Hin. cbn [skipn]. rewrite firstn_all2 by (rewrite map_length, (Lr kc Hin); lia). rewrite map_map. rewrite <- (map_id (snd kc)) at 2. apply map_ext. intros. lia.
Qed.
