(** Proofs about whole PLY files. *)
From Coq Require Import ZArith NArith List String Ascii Bool Lia.
From Verif.Lib Require Import Base Facts Facts2 Text TextFacts Lines LinesFacts Runs Bytes BytesFacts File Group.
From Verif.Model Require Import Core Gmsh22 Port Ply PlyFile.
From Verif.Spec Require Import Core Blocks Surface PlyFile.
From Verif.Proofs Require Import Core CoreMisc CoreSets Blocks RunsBlocks Obj Ply Gmsh22 Port VtkPort.
Import ListNotations.
Open Scope list_scope.

(** ** Lines *)
Lemma next_line_row k ts ls : forallb word ts = true -> ts <> [] -> String.prefix "comment" (row_line ts) = false ->
  next_line (S k) (row_line ts :: ls) = Ok (row_line ts, ls).
Proof.
  intros H1 H2 H3. cbn [next_line line1 hd tl]. rewrite strip_row by auto. rewrite H3.
  destruct (String.eqb_spec (row_line ts) ""%string) as [E|]; [|reflexivity].
  destruct ts as [|t ts]; [congruence|]. cbn [forallb] in H1. apply andb_prop in H1. destruct H1 as [H1 _]. apply word_no_space in H1.
  destruct H1 as [_ H1]. destruct t as [|a t]; [congruence|]. destruct ts; discriminate E.
Qed.
Lemma rstrip_word_app w s : no_space w = true -> w <> ""%string -> exists t, rstrip (w ++ s) = (w ++ t)%string.
Proof.
  induction w as [|a w IH]; [congruence|]. intros H _. cbn [no_space] in H. apply andb_prop in H. destruct H as [Ha H].
  cbn [append rstrip]. destruct w as [|b w].
  - cbn [append]. destruct (rstrip s) as [|c r].
    + exists ""%string. apply Bool.negb_true_iff in Ha. now rewrite Ha.
    + exists (String c r). reflexivity.
  - destruct (IH H) as (t & E); [discriminate|]. exists t. rewrite E. reflexivity.
Qed.
Lemma next_line_comment k s ls : next_line (S k) (("comment" ++ s)%string :: ls) = next_line k ls.
Proof.
  cbn [next_line line1 hd tl]. unfold strip.
  assert (E : lstrip ("comment" ++ s) = ("comment" ++ s)%string) by reflexivity.
  rewrite E. destruct (rstrip_word_app "comment" s eq_refl) as (t & Et); [discriminate|]. rewrite Et, prefix_app, Bool.orb_true_r. reflexivity.
Qed.
Lemma digits_leading s : all_digits s = true -> leading_digits s = s.
Proof.
  induction s as [|a s IH]; [reflexivity|]. cbn [all_digits leading_digits]. intros H. apply andb_prop in H. destruct H as [H1 H2].
  unfold is_digit in H1. destruct (digit_val a); [|discriminate]. now rewrite IH.
Qed.
Lemma match_count_ok head n : match_count head (head ++ str_of_nat n)%string = Some n.
Proof.
  unfold match_count. rewrite prefix_app, remove_prefix_app. unfold str_of_nat. rewrite digits_leading by apply str_of_N_all_digits.
  pose proof (parse_N_str_of_N (N.of_nat n)) as E. destruct (str_of_N (N.of_nat n)) eqn:Es; [discriminate E|]. now rewrite E, Nat2N.id.
Qed.

(** ** The header *)
Definition go (k : nat) (st : inside) (ls : list string) (h : header) : result (header * list string) :=
  do r <- next_line (S k) ls; read_header k st (fst r) (snd r) h.
Definition prop_lines (ps : list (string * string)) : list string := map (fun p => property_line (snd p) (fst p)) ps.
Definition word_pair (p : string * string) : Prop := word (fst p) = true /\ word (snd p) = true.

Lemma go_row k st ts rest h : forallb word ts = true -> ts <> [] -> String.prefix "comment" (row_line ts) = false ->
  go k st (row_line ts :: rest) h = read_header k st (row_line ts) rest h.
Proof. intros H1 H2 H3. unfold go. now rewrite next_line_row. Qed.
Lemma go_prop k p rest h : word_pair p ->
  go (S k) InVertex (property_line (snd p) (fst p) :: rest) h =
  go k InVertex rest (Header (h_verts h) (h_faces h) (h_props h ++ [p]) (h_fprops h)).
Proof.
  destruct p as [name t]. intros [Hn Ht]. cbn [fst snd] in *.
  change (property_line t name) with (row_line ["property"; t; name]). rewrite go_row; [|cbn [forallb]; now rewrite Hn, Ht|discriminate|reflexivity].
  cbn [read_header]. change (String.prefix "property" (row_line ["property"; t; name])) with true. cbv iota.
  change (row_line ["property"; t; name]) with (property_line t name). rewrite property_ok by auto. cbn [bind fst snd]. reflexivity.
Qed.
Lemma go_props ps : forall k rest h, Forall word_pair ps ->
  go (length ps + k) InVertex (prop_lines ps ++ rest) h =
  go k InVertex rest (Header (h_verts h) (h_faces h) (h_props h ++ ps) (h_fprops h)).
Proof.
  induction ps as [|p ps IH]; intros k rest h H.
  - cbn. rewrite app_nil_r. now destruct h.
  - inversion H as [|? ? Hp Hps]; subst. cbn [length Nat.add prop_lines map app]. rewrite go_prop by auto.
    change (map (fun p => property_line (snd p) (fst p)) ps) with (prop_lines ps). rewrite IH by auto. cbn [h_verts h_faces h_props h_fprops].
    now rewrite <- app_assoc.
Qed.
Lemma go_faces k n name rest h : word name = true ->
  go (S (S k)) InVertex (("element face " ++ str_of_nat n)%string :: list_property_line name :: rest) h =
  go k InFace rest (Header (h_verts h) n (h_props h) (h_fprops h ++ [("vertex_indices", ListOf "uint8" name)])).
Proof.
  intros Hn. change ("element face " ++ str_of_nat n)%string with (row_line ["element"; "face"; str_of_nat n]).
  rewrite go_row; [|cbn [forallb]; now rewrite word_str_of_nat|discriminate|reflexivity].
  change (row_line ["element"; "face"; str_of_nat n]) with ("element face " ++ str_of_nat n)%string.
  remember (S k) as k1 eqn:Ek. cbn [read_header].
  change (String.prefix "property" ("element face " ++ str_of_nat n)) with false. cbv iota.
  change (String.eqb ("element face " ++ str_of_nat n) "end_header") with false.
  change (String.prefix "obj_info" ("element face " ++ str_of_nat n)) with false.
  change (match_count "element vertex " ("element face " ++ str_of_nat n)) with (@None nat).
  rewrite match_count_ok. cbv iota. subst k1.
  change (go (S k) InFace (list_property_line name :: rest) (Header (h_verts h) n (h_props h) (h_fprops h)) =
          go k InFace rest (Header (h_verts h) n (h_props h) (h_fprops h ++ [("vertex_indices", ListOf "uint8" name)]))).
  change (list_property_line name) with (row_line ["property"; "list"; "uint8"; name; "vertex_indices"]).
  rewrite go_row; [|cbn [forallb]; now rewrite Hn|discriminate|reflexivity].
  change (row_line ["property"; "list"; "uint8"; name; "vertex_indices"]) with (list_property_line name).
  cbn [read_header]. change (String.prefix "property" (list_property_line name)) with true.
  change (String.prefix "property list" (list_property_line name)) with true. cbv iota.
  rewrite list_property_ok by auto. reflexivity.
Qed.
Lemma go_end k st rest h : go (S k) st ("end_header"%string :: rest) h = Ok (h, rest).
Proof. destruct st; reflexivity. Qed.
Lemma header_start k n rest h :
  read_header (S k) Outside ("element vertex " ++ str_of_nat n)%string rest h = go k InVertex rest (Header n (h_faces h) (h_props h) (h_fprops h)).
Proof.
  cbn [read_header]. change (String.eqb ("element vertex " ++ str_of_nat n) "end_header") with false.
  change (String.prefix "obj_info" ("element vertex " ++ str_of_nat n)) with false. cbv iota. now rewrite match_count_ok.
Qed.

(** The lines of a header and what they say *)
Definition face_lines (f : option (nat * string)) : list string :=
  match f with Some (n, name) => [("element face " ++ str_of_nat n)%string; list_property_line name] | None => [] end.
Definition head_lines (binary big : bool) (stamp : string) (n : nat) (ps : list (string * string)) (f : option (nat * string)) : list string :=
  ["ply"; format_line binary big; ("comment Created by meshio " ++ stamp)%string; ("element vertex " ++ str_of_nat n)%string] ++
  prop_lines ps ++ face_lines f ++ ["end_header"].
Definition said (n : nat) (ps : list (string * string)) (f : option (nat * string)) : header :=
  Header n (match f with Some (k, _) => k | None => 0 end) ps
    (match f with Some (_, name) => [("vertex_indices", ListOf "uint8" name)] | None => [] end).

Lemma header_read fuel n ps f rest : Forall word_pair ps -> (forall k name, f = Some (k, name) -> word name = true) ->
  length ps + 4 <= fuel ->
  read_header fuel Outside ("element vertex " ++ str_of_nat n)%string (prop_lines ps ++ face_lines f ++ "end_header" :: rest) h0 = Ok (said n ps f, rest).
Proof.
  intros Hp Hf Hfu. replace fuel with (S (length ps + S (S (S (fuel - length ps - 4))))) by lia.
  rewrite header_start. cbn [h0 h_faces h_props h_fprops]. rewrite go_props by auto. cbn [h_verts h_faces h_props h_fprops app].
  destruct f as [[k name]|]; cbn [face_lines app].
  - rewrite go_faces by eauto. cbn [h_verts h_faces h_props h_fprops app]. rewrite go_end. reflexivity.
  - rewrite go_end. reflexivity.
Qed.

(** ** From the start of the file to the data *)
Lemma read_ply_start (nk : numbers) fuel binary big stamp n ps f body :
  one_line stamp -> Forall word_pair ps -> (forall k name, f = Some (k, name) -> word name = true) ->
  Forall is_byte body -> length ps + 4 <= fuel ->
  read_ply nk fuel (text_bytes (head_lines binary big stamp n ps f) ++ body) =
  if binary then read_binary nk big (said n ps f) body else read_text nk (said n ps f) (to_lines body).
Proof.
  intros Hs Hp Hf Hb Hfu. unfold read_ply. rewrite to_lines_text.
  2:{ unfold head_lines. apply Forall_app. split; [|apply Forall_app; split; [|apply Forall_app; split]].
      - repeat constructor.
        + destruct binary, big; reflexivity.
        + apply one_line_app; [reflexivity|exact Hs].
        + apply (one_line_row ["element"; "vertex"; str_of_nat n]). cbn [forallb]. now rewrite word_str_of_nat.
      - unfold prop_lines. apply Forall_map. eapply Forall_impl; [|exact Hp]. intros [a b] [H1 H2]. cbn [fst snd] in *.
        apply (one_line_row ["property"; b; a]). cbn [forallb]. now rewrite H1, H2.
      - destruct f as [[k name]|]; [|constructor]. constructor; [|constructor; [|constructor]].
        + apply (one_line_row ["element"; "face"; str_of_nat k]). cbn [forallb]. now rewrite word_str_of_nat.
        + apply (one_line_row ["property"; "list"; "uint8"; name; "vertex_indices"]). cbn [forallb]. now rewrite (Hf k name).
      - repeat constructor. }
  unfold head_lines. cbn [app line1 hd tl]. change (String.eqb (strip "ply") "ply") with true. cbn [negb].
  destruct fuel as [|[|fu]]; [lia|lia|].
  assert (E1 : forall ls, next_line (S (S fu)) (format_line binary big :: ls) = Ok (format_line binary big, ls)) by (intros; destruct binary, big; reflexivity).
  rewrite E1. cbn [bind fst snd].
  assert (E2 : (if String.eqb (format_line binary big) "format ascii 1.0" then Ok None
     else if String.eqb (format_line binary big) "format binary_big_endian 1.0" then Ok (Some true)
     else if String.eqb (format_line binary big) "format binary_little_endian 1.0" then Ok (Some false) else Err ReadError) =
     Ok (if binary then Some big else None)) by (destruct binary, big; reflexivity).
  rewrite E2. cbn [bind].
  change ("comment Created by meshio " ++ stamp)%string with ("comment" ++ (" Created by meshio " ++ stamp))%string.
  rewrite next_line_comment.
  change ("element vertex " ++ str_of_nat n)%string with (row_line ["element"; "vertex"; str_of_nat n]).
  rewrite next_line_row; [|cbn [forallb]; now rewrite word_str_of_nat|discriminate|reflexivity]. cbn [bind fst snd].
  change (row_line ["element"; "vertex"; str_of_nat n]) with ("element vertex " ++ str_of_nat n)%string.
  rewrite <- !app_assoc. cbn [app]. rewrite header_read by auto. cbn [bind fst snd].
  destruct binary; [|reflexivity]. now rewrite of_to_lines.
Qed.

(** ** Rows of points *)
Section Rows.
Context {nk : numbers} (good : string -> nk -> Prop) (Hnum : exact_numbers nk good).

Lemma flat_map_nth_seq {A} (l : list A) : flat_map (fun i => match nth_error l i with Some v => [v] | None => [] end) (seq 0 (length l)) = l.
Proof.
  induction l as [|x l IH]; [reflexivity|]. cbn [length seq flat_map nth_error app]. f_equal.
  rewrite <- seq_shift, flat_map_concat_map, map_map, <- flat_map_concat_map. exact IH.
Qed.
(** Columns of equal length *)
Definition cols_ok (n : nat) (cols : list (string * parray nk)) : Prop := Forall (fun kv => length (pa_values nk (snd kv)) = n) cols.
Lemma column_values n i cols : cols_ok n cols -> i < n ->
  forall j, nth_error (flat_map (column_value nk i) cols) j =
    match nth_error cols j with
    | Some kv => match nth_error (pa_values nk (snd kv)) i with Some v => Some (pa_code nk (snd kv), v) | None => None end
    | None => None end.
Proof.
  intros H Hi. induction H as [|kv cols Hkv H IH]; intros j; [now destruct j|]. cbn [flat_map].
  unfold column_value at 1. destruct (nth_error (pa_values nk (snd kv)) i) as [v|] eqn:E.
  - destruct j as [|j]; cbn [app nth_error]; [now rewrite E|apply IH].
  - apply nth_error_None in E. lia.
Qed.
Lemma column_codes n i cols : cols_ok n cols -> i < n ->
  map fst (flat_map (column_value nk i) cols) = map (fun kv => pa_code nk (snd kv)) cols.
Proof.
  intros H Hi. induction H as [|kv cols Hkv H IH]; [reflexivity|]. cbn [flat_map map]. unfold column_value at 1.
  destruct (nth_error (pa_values nk (snd kv)) i) as [v|] eqn:E; [cbn; now rewrite IH|]. apply nth_error_None in E. lia.
Qed.

Variable m : ply_mesh nk.
Let cols := ply_columns nk m.
Let n := length (pl_points nk m).
Hypothesis Hcols : cols_ok n cols.
Hypothesis Hpts : Forall (fun p => length p = 3) (pl_points nk m).

Definition row_values (r : list (string * nk)) : list nk := map snd r.
Definition row_codes : list string := repeat (pl_code nk m) 3 ++ map (fun kv => pa_code nk (snd kv)) cols.

Lemma row_in ip : In ip (combine (seq 0 n) (pl_points nk m)) -> fst ip < n /\ length (snd ip) = 3 /\ In (snd ip) (pl_points nk m).
Proof.
  destruct ip as [i p]. intros H. pose proof (in_combine_l _ _ _ _ H) as H1. pose proof (in_combine_r _ _ _ _ H) as H2.
  apply in_seq in H1. rewrite Forall_forall in Hpts. cbn. split; [lia|]. auto.
Qed.
Lemma codes_row ip : In ip (combine (seq 0 n) (pl_points nk m)) -> map fst (ply_row nk m ip) = row_codes.
Proof.
  intros H. destruct (row_in ip H) as (H1 & H2 & _). unfold ply_row, row_codes. rewrite map_app, map_map. f_equal.
  - unfold typed. cbn [fst]. destruct (snd ip) as [|a [|b [|c [|]]]]; try discriminate H2. reflexivity.
  - now apply (column_codes n).
Qed.
Lemma codes_rows : Forall (fun r => map fst r = row_codes) (ply_rows nk m).
Proof. unfold ply_rows. apply Forall_map, Forall_forall. intros ip H. now apply codes_row. Qed.
Lemma rows_length : length (ply_rows nk m) = n.
Proof. unfold ply_rows. rewrite map_length, combine_length, seq_length. unfold n. lia. Qed.

(** Coordinates and columns from the rows *)
Lemma combine_snd {A} (l : list A) : forall s, map snd (combine (seq s (length l)) l) = l.
Proof. induction l as [|x l IH]; intros s; [reflexivity|]. cbn. now rewrite IH. Qed.
Lemma combine_fst {A} (l : list A) : forall s, map fst (combine (seq s (length l)) l) = seq s (length l).
Proof. induction l as [|x l IH]; intros s; [reflexivity|]. cbn. now rewrite IH. Qed.
Lemma picked : map (fun r => pick nk r [0; 1; 2]) (map row_values (ply_rows nk m)) = pl_points nk m.
Proof.
  unfold ply_rows. rewrite !map_map. rewrite <- (combine_snd (pl_points nk m) 0) at 3. apply map_ext_in. intros ip H.
  destruct (row_in ip H) as (_ & H2 & _). unfold row_values, ply_row. rewrite map_app, map_map. cbn [snd].
  destruct (snd ip) as [|a [|b [|c [|]]]]; try discriminate H2. reflexivity.
Qed.
Lemma column_of j kv : nth_error cols j = Some kv -> column nk (map row_values (ply_rows nk m)) (3 + j) = pa_values nk (snd kv).
Proof.
  intros Hj. unfold column, ply_rows. rewrite flat_map_concat_map, !map_map.
  assert (Hl : length (pa_values nk (snd kv)) = n).
  { apply nth_error_In in Hj. unfold cols_ok in Hcols. rewrite Forall_forall in Hcols. now apply Hcols. }
  rewrite <- (flat_map_nth_seq (pa_values nk (snd kv))), Hl. unfold n. symmetry.
  rewrite <- (combine_fst (pl_points nk m) 0) at 1. symmetry. rewrite flat_map_concat_map, map_map. f_equal. apply map_ext_in. intros ip H.
  destruct (row_in ip H) as (H1 & H2 & _). unfold row_values, ply_row. rewrite map_app, map_map. cbn [snd].
  rewrite nth_error_app2; rewrite map_length, H2; [|lia]. replace (3 + j - 3) with j by lia.
  rewrite nth_error_map. rewrite (column_values n (fst ip) cols Hcols H1). fold cols. rewrite Hj.
  destruct (nth_error (pa_values nk (snd kv)) (fst ip)); reflexivity.
Qed.
Lemma data_columns : forall l k,
  (forall j kv, nth_error l j = Some kv -> nth_error cols (k + j) = Some kv) ->
  map (fun jn => (snd jn, column nk (map row_values (ply_rows nk m)) (fst jn))) (combine (seq (3 + k) (length l)) (map fst l)) =
  map (fun kv => (fst kv, pa_values nk (snd kv))) l.
Proof.
  induction l as [|kv l IH]; intros k H; [reflexivity|]. cbn [length seq map combine fst snd]. f_equal.
  - f_equal. apply column_of. rewrite <- (Nat.add_0_r k). now apply H.
  - replace (S (3 + k)) with (3 + S k) by lia. apply IH. intros j kv' Hj. replace (S k + j) with (k + S j) by lia. now apply H.
Qed.
End Rows.

(** ** Reading the rows *)
Section Read.
Context {nk : numbers} (good : string -> nk -> Prop) (Hnum : exact_numbers nk good).
Definition good_row (r : list (string * nk)) : Prop := Forall (fun cv => good (fst cv) (snd cv)) r.
Definition texts (r : list (string * nk)) : list string := map (fun cv => num_text nk (fst cv) (snd cv)) r.
Definition row_data (r : list (string * nk)) : bytes := flat_map (fun cv => num_bytes nk false (fst cv) (snd cv)) r.

Lemma texts_words r : good_row r -> forallb word (texts r) = true.
Proof. intros H. apply forallb_forall. intros t Ht. apply in_map_iff in Ht. destruct Ht as (cv & <- & Hc). unfold good_row in H. rewrite Forall_forall in H. apply (en_word _ _ Hnum). now apply H. Qed.
Lemma char_in_app c a b : char_in c (a ++ b) = (char_in c a || char_in c b)%bool.
Proof. induction a as [|x a IH]; [reflexivity|]. cbn [append char_in]. now rewrite IH, Bool.orb_assoc. Qed.
Lemma row_no_hash ts : Forall (fun t => char_in "#" t = false) ts -> char_in "#" (row_line ts) = false.
Proof.
  unfold row_line. induction 1 as [|t ts Ht H IH]; [reflexivity|]. destruct ts as [|u ts]; [exact Ht|].
  rewrite join_cons, !char_in_app, Ht, IH. reflexivity.
Qed.
Lemma texts_hash r : good_row r -> char_in "#" (row_line (texts r)) = false.
Proof.
  intros H. apply row_no_hash. unfold texts. apply Forall_map. eapply Forall_impl; [|exact H]. intros cv Hc. now apply (en_hash _ _ Hnum).
Qed.
Lemma take_rows_ok rows rest : Forall good_row rows -> Forall (fun r => r <> []) rows ->
  take_rows (length rows) (map (fun r => row_line (texts r)) rows ++ rest) = (map texts rows, rest).
Proof.
  intros H Hne. induction H as [|r rows Hr H IH].
  - cbn. now destruct rest.
  - inversion Hne as [|? ? Hr2 Hne']; subst. cbn [map app length take_rows].
    unfold cut_hash. rewrite split_char_single by now apply texts_hash. cbn [hd].
    unfold row_line at 1. rewrite split_ws_join by now apply texts_words.
    destruct r as [|cv r]; [congruence|]. cbn [texts map]. rewrite IH by auto. reflexivity.
Qed.
Lemma parse_row r : good_row r -> map (fun ct => num_parse nk (fst ct) (snd ct)) (combine (map fst r) (texts r)) = map snd r.
Proof.
  induction 1 as [|[c v] r Hv H IH]; [reflexivity|]. cbn [map texts combine fst snd]. cbn [fst snd] in Hv. f_equal; [now apply (en_text _ _ Hnum)|exact IH].
Qed.
Lemma genfromtxt_ok names codes rows rest : rows <> [] -> codes <> [] -> Forall good_row rows -> Forall (fun r => map fst r = codes) rows ->
  genfromtxt nk names codes (length rows) (map (fun r => row_line (texts r)) rows ++ rest) = Ok (map (map snd) rows, rest).
Proof.
  intros H1 Hc H2 H3. unfold genfromtxt. destruct (Nat.eqb_spec (length rows) 0) as [E|_]; [destruct rows; [congruence|discriminate E]|].
  rewrite take_rows_ok; [|exact H2|].
  2:{ eapply Forall_impl; [|exact H3]. intros r Hr ->. now elim Hc. }
  assert (HL : Forall (fun ts => length ts = length codes) (map texts rows)).
  { apply Forall_map. eapply Forall_impl; [|exact H3]. intros r Hr. unfold texts. rewrite map_length, <- (map_length fst), Hr. reflexivity. }
  destruct rows as [|r rows]; [congruence|]. cbn [map] in *.
  inversion HL as [|? ? L1 L2]; subst.
  assert (E1 : forallb (fun r' => Nat.eqb (length r') (length (texts r))) (texts r :: map texts rows) = true).
  { apply forallb_forall. intros x Hx. rewrite Forall_forall in HL. rewrite (HL x Hx), L1. apply Nat.eqb_refl. }
  rewrite E1. cbn [negb]. rewrite L1, Nat.ltb_irrefl. do 2 f_equal.
  change (map (fun ts => map (fun ct => num_parse nk (fst ct) (snd ct)) (combine codes ts)) (map texts (r :: rows)) = map (map snd) (r :: rows)).
  rewrite map_map. apply map_ext_in. intros x Hx. rewrite Forall_forall in H3. rewrite <- (H3 x Hx). apply parse_row.
  rewrite Forall_forall in H2. now apply H2.
Qed.

(** Binary *)
Variable big : bool.
Definition row_bytes (r : list (string * nk)) : bytes := flat_map (fun cv => num_bytes nk big (fst cv) (snd cv)) r.
Lemma num_width_size code : num_width code = item_size code.
Proof.
  unfold num_width, item_size. cbn [dget].
  repeat match goal with |- context [String.eqb code ?k] => destruct (String.eqb_spec code k) as [->|]; [reflexivity|] end.
  reflexivity.
Qed.
Lemma row_bytes_length r : good_row r -> length (row_bytes r) = sum_nat (map num_width (map fst r)).
Proof.
  induction 1 as [|[c v] r Hv H IH]; [reflexivity|]. cbn [row_bytes flat_map map sum_nat fst snd]. rewrite app_length.
  cbn [fst snd] in Hv. rewrite (en_width _ _ Hnum) by auto. unfold row_bytes in IH. now rewrite IH, num_width_size.
Qed.
Lemma row_bytes_byte r : good_row r -> Forall is_byte (row_bytes r).
Proof.
  induction 1 as [|[c v] r Hv H IH]; [constructor|]. cbn [row_bytes flat_map]. apply Forall_app. split; [now apply (en_byte _ _ Hnum)|exact IH].
Qed.
Lemma value_row r : good_row r ->
  map (fun cb => num_value nk big (fst cb) (snd cb)) (combine (map fst r) (fields (map num_width (map fst r)) (row_bytes r))) = map snd r.
Proof.
  induction 1 as [|[c v] r Hv H IH]; [reflexivity|]. cbn [fst snd] in Hv. cbn [map fields combine row_bytes flat_map fst snd].
  assert (L : length (num_bytes nk big c v) = num_width c) by (rewrite num_width_size; now apply (en_width _ _ Hnum)).
  rewrite firstn_app, <- L, firstn_all, Nat.sub_diag, firstn_O, app_nil_r, skipn_app, skipn_all, Nat.sub_diag. cbn [app skipn].
  f_equal; [now apply (en_value _ _ Hnum)|]. exact IH.
Qed.
Lemma records_ok codes rows rest : 0 < sum_nat (map num_width codes) -> Forall good_row rows -> Forall (fun r => map fst r = codes) rows ->
  frombuffer (sum_nat (map num_width codes)) (firstn (length rows * sum_nat (map num_width codes)) (concat (map row_bytes rows) ++ rest)) = Ok (map row_bytes rows) /\
  skipn (length rows * sum_nat (map num_width codes)) (concat (map row_bytes rows) ++ rest) = rest /\
  map (fun r => map (fun cb => num_value nk big (fst cb) (snd cb)) (combine codes (fields (map num_width codes) r))) (map row_bytes rows) = map (map snd) rows.
Proof.
  intros Hp H1 H2. set (w := sum_nat (map num_width codes)) in *.
  assert (HL : Forall (fun x => length x = w) (map row_bytes rows)).
  { apply Forall_map, Forall_forall. intros r Hr. rewrite Forall_forall in H1, H2. rewrite row_bytes_length by auto. now rewrite (H2 r Hr). }
  assert (EL : length (concat (map row_bytes rows)) = length rows * w).
  { rewrite (concat_uniform_length w) by exact HL. rewrite map_length. lia. }
  split; [|split].
  - rewrite firstn_app, <- EL, firstn_all, Nat.sub_diag, firstn_O, app_nil_r. now apply frombuffer_concat.
  - rewrite skipn_app, <- EL, skipn_all, Nat.sub_diag. reflexivity.
  - rewrite map_map. apply map_ext_in. intros r Hr. rewrite Forall_forall in H1, H2. rewrite <- (H2 r Hr). apply value_row. now apply H1.
Qed.
End Read.

(** ** Faces *)
Section Faces.
Context {nk : numbers}.
Lemma face_rows_lines ct vt c v k : dget ct ply_to_numpy = Some c -> dget vt ply_to_numpy = Some v -> forall ls acc (sd : dict (list (nat * list nk))),
  read_face_rows nk [("vertex_indices", ListOf ct vt)] k ls (acc, sd) = do acc' <- read_face_lines k ls acc; Ok (acc', sd).
Proof.
  intros Hc Hv. induction k as [|k IH]; intros ls acc sd; [reflexivity|].
  cbn [read_face_rows face_props read_face_lines]. change (String.eqb "vertex_indices" "vertex_indices") with true. cbv iota.
  rewrite Hc. cbn [of_option bind]. destruct (split_ws (line1 ls)) as [|t data]; [reflexivity|]. cbn [nth_error].
  destruct (parse_Z t) as [n|]; [|reflexivity]. cbn [of_option bind]. rewrite Hv. cbn [of_option bind].
  change (skipn (0 + 1) (t :: data)) with data. destruct (parse_ints _) as [idx|]; [|reflexivity]. cbn [bind fst snd]. apply IH.
Qed.
Lemma face_line_one c : one_line (face_line c).
Proof. unfold face_line. apply one_line_row. cbn [forallb]. now rewrite word_str_of_nat, words_ints. Qed.
Lemma faces_ascii_lines bs : Forall one_line (faces_ascii bs).
Proof.
  unfold faces_ascii. apply Forall_forall. intros l Hl. apply in_flat_map in Hl. destruct Hl as (b & _ & Hl). unfold block_lines in Hl.
  destruct (bdata b) as [|r rs]; [destruct Hl as [<-|[]]; reflexivity|]. apply in_map_iff in Hl. destruct Hl as (c & <- & _). apply face_line_one.
Qed.
Lemma faces_binary_byte big t bs : Forall is_byte (faces_binary big t bs).
Proof.
  unfold faces_binary. apply Forall_forall. intros x Hx. apply in_flat_map in Hx. destruct Hx as (b & _ & Hx). apply in_flat_map in Hx.
  destruct Hx as (c & _ & Hx). unfold face_bytes in Hx. apply in_app_iff in Hx. destruct Hx as [[<-|[]]|Hx].
  - unfold is_byte. apply N.mod_lt. discriminate.
  - apply in_flat_map in Hx. destruct Hx as (z & _ & Hx). unfold int_enc, sint_bytes in Hx.
    pose proof (uint_bytes_ok big (snd t) (Z.to_N (z mod Z.of_N (capacity (snd t))))) as H. rewrite Forall_forall in H. now apply H.
Qed.

(** What the faces of a file have to do *)
Definition face_result (bs : list block) : list block := regroup (map (fun f => (corner_type (length f), f)) (ply_faces bs)).
Definition reads_faces (binary big : bool) (f : option (nat * string)) (d : face_data) (out : list block) : Prop :=
  let nf := match f with Some (k, _) => k | None => 0 end in
  let props := match f with Some (_, name) => [("vertex_indices", ListOf "uint8" name)] | None => [] end in
  match d with
  | FaceBytes b => binary = true /\ Forall is_byte b /\ read_face_buffers big nf props b [] [] false = Ok (out, [], false)
  | FaceLines fl => binary = false /\ Forall one_line fl /\
      (if Nat.eqb nf 0 then Ok [] else init_face_data nk props (split_ws (line1 (fl ++ [""%string]))) 0 []) = Ok [] /\
      exists acc, read_face_rows nk props nf (fl ++ [""%string]) ([], []) = Ok (acc, []) /\
        rev (map (fun g => Block (fst g) (rev (snd g))) acc) = out
  end.
Lemma index_type_ok code sg w : index_type code sg w -> int_type (wide code) = Some (sg, w) /\ code <> "i2"%string.
Proof. unfold index_type. intros H. cbn in H. repeat (destruct H as [H|H]; [injection H as <- <- <-; split; [reflexivity|discriminate]|]). destruct H. Qed.

Lemma face_part_ok good binary big (m : ply_mesh nk) : storable good binary m ->
  exists f d, ply_face_part nk binary big m = Ok (face_lines f, d) /\ (forall k name, f = Some (k, name) -> word name = true) /\
    reads_faces binary big f d (face_result (map snd (pl_cells nk m))).
Proof.
  intros Hm. unfold ply_face_part. rewrite num_faces_ok. unfold face_result.
  destruct (ply_faces (map snd (pl_cells nk m))) as [|c0 fs0] eqn:Ef.
  - cbn [length Nat.eqb]. exists None. eexists. split; [reflexivity|]. split; [discriminate|].
    destruct binary; cbn [reads_faces].
    + split; [reflexivity|]. split; [constructor|reflexivity].
    + split; [reflexivity|]. split; [apply faces_ascii_lines|]. split; [reflexivity|]. exists []. split; reflexivity.
  - destruct (sb_cells _ _ _ Hm) as [E|(code & sg & w & bs & Eb & Ht & Hf & Hw & He)]; [congruence|].
    rewrite Eb in Ef |- *. rewrite map_map in Ef |- *. cbn [snd] in Ef |- *. rewrite map_id in Ef |- *.
    rewrite <- Ef. assert (Hnz : Nat.eqb (length (ply_faces bs)) 0 = false) by (rewrite Ef; reflexivity). rewrite Hnz.
    destruct (index_type_ok _ _ _ Ht) as [Hc Hi2]. assert (Hne : bs <> []) by (intros ->; discriminate Ef).
    unfold write_faces.
    assert (Ecast : map cast_down (map (pair code) bs) = map (pair (wide code)) bs).
    { rewrite map_map. apply map_ext_in. intros b Hb. rewrite Forall_forall in Hf. now apply (cast_id code b sg w), Hf. }
    rewrite Ecast, !map_map. cbn [snd]. rewrite map_id.
    assert (Ecom : common_type (map (pair (wide code)) bs) = Ok (wide code)).
    { clear - Hne. destruct bs as [|b bs]; [congruence|]. cbn [map common_type fst]. replace (forallb _ _) with true; [reflexivity|].
      symmetry. apply forallb_forall. intros x [<-|Hx]; [apply String.eqb_refl|]. apply in_map_iff in Hx. destruct Hx as (? & <- & _).
      apply String.eqb_refl. }
    rewrite Ecom. cbn [bind]. destruct (codes_ok code sg w Hc) as (Hpos & name & Hn1 & Hn2 & Hn3 & Hn4).
    rewrite Hn1, Hc. cbn [of_option bind]. rewrite num_faces_ok.
    exists (Some (length (ply_faces bs), name)). eexists. split; [reflexivity|]. split; [intros k nm E; injection E as <- <-; exact Hn2|].
    destruct binary; cbn [reads_faces].
    + split; [reflexivity|]. split; [apply faces_binary_byte|]. cbn [read_face_buffers].
      change (dget "uint8" ply_binary_table) with (Some "u1"). cbn [of_option bind].
      rewrite Hn4 by (unfold wide; destruct (String.eqb_spec code "i8"); [discriminate|auto]).
      cbn [of_option bind]. change (int_type "u1") with (Some (false, 1)). rewrite Hc. cbn [of_option bind snd].
      assert (Hall : Forall (fun c => length c <= 255 /\ Forall (fits sg w) c) (ply_faces bs)).
      { apply Forall_forall. intros c Hin. split; [rewrite Forall_forall in Hw; specialize (Hw c Hin); cbn in Hw; lia|].
        unfold ply_faces, faces_of in Hin. apply in_flat_map in Hin. destruct Hin as (b & Hb & Hin).
        apply filter_In in Hb. rewrite Forall_forall in Hf. specialize (Hf b (proj1 Hb)).
        rewrite Forall_forall in Hf. now apply Hf. }
      rewrite faces_binary_ok, <- (app_nil_r (concat _)), (binary_list_ok big (sg, w)) by auto. reflexivity.
    + split; [reflexivity|]. split; [apply faces_ascii_lines|]. rewrite Hnz.
      rewrite faces_ascii_ok.
      2:{ specialize (He eq_refl). apply Forall_forall. intros b Hb. apply filter_In in Hb. rewrite Forall_forall in He. now apply He. }
      split.
      * rewrite Ef. cbn [map app line1 hd init_face_data]. change (String.eqb "vertex_indices" "vertex_indices") with true. cbv iota.
        unfold face_line, row_line. rewrite split_ws_join by (cbn [forallb]; now rewrite word_str_of_nat, words_ints).
        cbn [nth_error]. rewrite str_of_nat_Z, parse_Z_str_of_Z. reflexivity.
      * destruct (dget name ply_to_numpy) as [cd|] eqn:Ecd; [|congruence].
        rewrite (face_rows_lines "uint8" name "u1" cd) by (reflexivity || exact Ecd).
        destruct (read_face_lines_ok (ply_faces bs) [""%string] []) as (acc & Er & Ha); [constructor|].
        cbn [map] in Er. rewrite Er. cbn [bind]. eexists. split; [reflexivity|].
        rewrite <- width_blocks, <- (run_groups_adj Nat.eqb Nat.eqb_spec).
        unfold run_groups. rewrite <- Ha. unfold in_order. rewrite <- !map_rev, !map_map. reflexivity.
Qed.
End Faces.

(** ** Whole files *)
Definition type_name (code : string) : string := match dget code type_name_table with Some t => t | None => "" end.
Lemma type_name_ok code : In code point_types ->
  dget code type_name_table = Some (type_name code) /\ dget (type_name code) ply_to_numpy = Some code /\
  dget (type_name code) ply_binary_table = Some code /\ word (type_name code) = true /\ 0 < num_width code.
Proof. unfold point_types. cbn [In]. intros H. repeat (destruct H as [<-|H]; [vm_compute; repeat split; lia|]). destruct H. Qed.
Lemma simple_kept s : simple_name s -> name_kept s = true.
Proof.
  intros (H1 & H2 & H3). unfold name_kept. apply andb_true_intro. split.
  - apply forallb_forall. intros c Hc. rewrite Forall_forall in H2. specialize (H2 c Hc). clear - H2.
    destruct c as [b0 b1 b2 b3 b4 b5 b6 b7]. unfold name_char in H2.
    destruct b0, b1, b2, b3, b4, b5, b6, b7; vm_compute in H2 |- *; try reflexivity; exfalso; lia.
  - apply Bool.negb_true_iff. apply Bool.not_true_iff_false. rewrite smem_In. cbn in H3 |- *. intuition.
Qed.
Lemma distinct_ok l : NoDup l -> distinct l = true.
Proof. intros H. unfold distinct. apply Nat.eqb_eq. f_equal. now apply dedup_id. Qed.

Section Whole.
Context {nk : numbers} (good : string -> nk -> Prop) (Hnum : exact_numbers nk good).
Variables (binary big : bool) (stamp : string) (m : ply_mesh nk).
Hypothesis Hm : storable good binary m.
Let cols := ply_columns nk m.
Definition all_props : list (string * string) :=
  map (fun x => (x, type_name (pl_code nk m))) ["x"; "y"; "z"] ++ map (fun kv => (fst kv, type_name (pa_code nk (snd kv)))) (ply_columns nk m).

Lemma col_in kv : In kv cols -> In (pa_code nk (snd kv)) point_types /\ length (pa_values nk (snd kv)) = length (pl_points nk m) /\
  Forall (good (pa_code nk (snd kv))) (pa_values nk (snd kv)) /\ word (fst kv) = true /\ ~ In (fst kv) ["x"; "y"; "z"] /\ (binary = false -> simple_name (fst kv)).
Proof.
  intros H. unfold cols, ply_columns in H. apply filter_In in H. destruct H as [H1 H2]. destruct kv as [k a]. cbn [fst snd] in *.
  apply (sb_data _ _ _ Hm k a H1). unfold one_column in H2. cbn [snd] in H2. destruct (pa_shape nk a); [reflexivity|discriminate].
Qed.
Lemma stored_cols : stored_data m = map (fun kv => (fst kv, pa_values nk (snd kv))) cols.
Proof. reflexivity. Qed.
Lemma whole_cols : cols_ok (length (pl_points nk m)) cols.
Proof. apply Forall_forall. intros kv H. now apply col_in. Qed.
Lemma whole_points : Forall (fun p => length p = 3) (pl_points nk m).
Proof. eapply Forall_impl; [|exact (sb_points _ _ _ Hm)]. cbn. tauto. Qed.
Lemma whole_good : Forall (good_row good) (ply_rows nk m).
Proof.
  unfold ply_rows. apply Forall_map, Forall_forall. intros ip H. destruct (row_in m whole_points ip H) as (H1 & H2 & H3).
  unfold good_row, ply_row. apply Forall_app. split.
  - apply Forall_map. pose proof (sb_points _ _ _ Hm) as HP. rewrite Forall_forall in HP. destruct (HP _ H3) as [_ HG].
    eapply Forall_impl; [|exact HG]. cbn. auto.
  - apply Forall_forall. intros cv Hc. apply in_flat_map in Hc. destruct Hc as (kv & Hk & Hc). unfold column_value in Hc.
    destruct (nth_error (pa_values nk (snd kv)) (fst ip)) as [v|] eqn:E; [|contradiction]. destruct Hc as [<-|[]]. cbn [fst snd].
    destruct (col_in kv Hk) as (_ & _ & HG & _). rewrite Forall_forall in HG. apply HG. now apply nth_error_In in E.
Qed.
Lemma props_words : Forall word_pair all_props.
Proof.
  destruct (type_name_ok _ (sb_code _ _ _ Hm)) as (_ & _ & _ & Hw & _). unfold all_props. apply Forall_app. split.
  - cbn. repeat constructor; assumption.
  - apply Forall_map, Forall_forall. intros kv H. destruct (col_in kv H) as (H1 & _ & _ & H4 & _). split; [exact H4|].
    cbn. now apply type_name_ok.
Qed.
Lemma props_names : map fst all_props = ["x"; "y"; "z"] ++ map fst cols.
Proof. unfold all_props. rewrite map_app, !map_map. reflexivity. Qed.
Lemma names_distinct : distinct (map fst all_props) = true.
Proof.
  apply distinct_ok. rewrite props_names.
  assert (HN : NoDup (map fst cols)).
  { pose proof (sb_names _ _ _ Hm) as H. rewrite stored_cols, map_map in H. exact H. }
  assert (HX : forall s, In s ["x"; "y"; "z"] -> ~ In s (map fst cols)).
  { intros s Hs Hin. apply in_map_iff in Hin. destruct Hin as (kv & <- & Hk). destruct (col_in kv Hk) as (_ & _ & _ & _ & Hx & _). auto. }
  cbn [app]. constructor; [intros [H|[H|H]]; [discriminate H|discriminate H|revert H; apply HX; cbn; auto]|].
  constructor; [intros [H|H]; [discriminate H|revert H; apply HX; cbn; auto]|].
  constructor; [apply HX; cbn; auto|exact HN].
Qed.
Lemma props_codes (tbl : dict string) : (forall code, In code point_types -> dget (type_name code) tbl = Some code) ->
  mapM (fun p => of_option KeyError (dget (snd p) tbl)) all_props = Ok (row_codes m).
Proof.
  intros HT. unfold all_props, row_codes. fold cols.
  assert (HC : mapM (fun p : string * string => of_option KeyError (dget (snd p) tbl)) (map (fun kv => (fst kv, type_name (pa_code nk (snd kv)))) cols) =
               Ok (map (fun kv => pa_code nk (snd kv)) cols)).
  { assert (HI : forall kv, In kv cols -> In (pa_code nk (snd kv)) point_types) by (intros kv Hk; now apply col_in).
    clear - HT HI. induction cols as [|kv l IH]; [reflexivity|]. cbn [map mapM fst snd]. rewrite HT by (apply HI; now left). cbn [of_option bind].
    rewrite IH by (intros; apply HI; now right). reflexivity. }
  cbn [map app mapM fst snd repeat]. rewrite (HT _ (sb_code _ _ _ Hm)). cbn [of_option bind]. rewrite HC. reflexivity.
Qed.
Lemma write_header faces : ply_header_lines nk binary big stamp m faces =
  Ok (["ply"; format_line binary big; ("comment Created by meshio " ++ stamp)%string;
       ("element vertex " ++ str_of_nat (length (pl_points nk m)))%string] ++ prop_lines all_props ++ faces ++ ["end_header"]).
Proof.
  unfold ply_header_lines. rewrite (sb_dim _ _ _ Hm). destruct (type_name_ok _ (sb_code _ _ _ Hm)) as (HT & _).
  cbn [coord_lines]. rewrite HT. cbn [of_option bind].
  assert (HD : mapM (fun kv => write_property (pa_code nk (snd kv)) (fst kv)) (ply_columns nk m) =
               Ok (prop_lines (map (fun kv => (fst kv, type_name (pa_code nk (snd kv)))) cols))).
  { assert (HI : forall kv, In kv cols -> In (pa_code nk (snd kv)) point_types) by (intros kv Hk; now apply col_in). fold cols.
    clear - HI. induction cols as [|kv l IH]; [reflexivity|]. cbn [mapM map prop_lines fst snd]. unfold write_property at 1.
    destruct (type_name_ok _ (HI kv (or_introl eq_refl))) as (HT & _). rewrite HT. cbn [of_option bind].
    rewrite IH by (intros; apply HI; now right). reflexivity. }
  rewrite HD. cbn [bind]. unfold all_props, prop_lines. rewrite map_app. rewrite <- app_assoc. reflexivity.
Qed.
Lemma rows_some : ply_rows nk m <> [].
Proof. intros E. apply (f_equal (@length _)) in E. rewrite rows_length in E. pose proof (sb_some _ _ _ Hm) as H. destruct (pl_points nk m); [congruence|discriminate E]. Qed.
Lemma data_back : map (fun jn => (snd jn, column nk (map (map snd) (ply_rows nk m)) (fst jn))) (combine (seq 3 (length cols)) (map fst cols)) = stored_data m.
Proof.
  rewrite stored_cols. apply (data_columns m whole_cols whole_points cols 0). intros j kv H. exact H.
Qed.
Lemma data_lengths : forallb (fun kv => Nat.eqb (length (snd kv)) (length (pl_points nk m))) (stored_data m) = true.
Proof.
  rewrite stored_cols. apply forallb_forall. intros kv H. apply in_map_iff in H. destruct H as (kv' & <- & H). cbn [snd].
  apply Nat.eqb_eq. now apply col_in.
Qed.

Theorem ply_file_roundtrip fuel : one_line stamp -> length (stored_data m) + 7 <= fuel ->
  exists b, write_ply nk binary big stamp m = Ok b /\ read_ply nk fuel b = Ok (stored_mesh m).
Proof.
  intros Hs Hfu. destruct (@face_part_ok nk good binary big m Hm) as (f & d & Ef & Hf & Hr). unfold write_ply. rewrite Ef. cbn [bind fst snd].
  rewrite write_header. cbn [bind]. rewrite (sb_dim _ _ _ Hm). cbn [Nat.add Nat.eqb].
  change (["ply"; format_line binary big; ("comment Created by meshio " ++ stamp)%string; ("element vertex " ++ str_of_nat (length (pl_points nk m)))%string] ++
          prop_lines all_props ++ face_lines f ++ ["end_header"]) with (head_lines binary big stamp (length (pl_points nk m)) all_props f).
  assert (Hl : length all_props + 4 <= fuel).
  { unfold all_props. rewrite app_length, !map_length. rewrite stored_cols, map_length in Hfu. unfold cols in Hfu. cbn [length]. lia. }
  assert (Hn3 : nth_error (map fst all_props) 0 = Some "x"%string) by (rewrite props_names; reflexivity).
  set (N0 := length (pl_points nk m)) in *.
  destruct d as [b|fl].
  - destruct Hr as (Eb & Hb & Hr).
    eexists. split; [reflexivity|].
    assert (EB : flat_map (flat_map (fun cv => num_bytes nk big (fst cv) (snd cv))) (ply_rows nk m) = concat (map (row_bytes big) (ply_rows nk m))) by apply flat_map_concat_map.
    rewrite EB, read_ply_start; [|exact Hs|exact props_words|exact Hf| |exact Hl].
    2:{ apply Forall_app. split; [|exact Hb]. apply Forall_concat_bytes, Forall_map. eapply Forall_impl; [|exact whole_good].
        intros r Hr'. now apply (row_bytes_byte good Hnum). }
    rewrite Eb. unfold read_binary, said. cbn [h_props h_verts h_faces h_fprops].
    rewrite (props_codes ply_binary_table) by (intros c Hc; now apply type_name_ok). cbn [bind].
    rewrite names_distinct. cbn [negb].
    assert (Hpos : 0 < sum_nat (map num_width (row_codes m))).
    { unfold row_codes. cbn [repeat app map sum_nat]. destruct (type_name_ok _ (sb_code _ _ _ Hm)) as (_ & _ & _ & _ & Hw). lia. }
    destruct (Nat.eqb_spec (sum_nat (map num_width (row_codes m))) 0) as [E0|_]; [lia|].
    destruct (records_ok good Hnum big (row_codes m) (ply_rows nk m) b Hpos whole_good (codes_rows m whole_cols whole_points)) as (R1 & R2 & R3).
    rewrite (rows_length m) in R1, R2. fold N0 in R1, R2. rewrite R1. cbn [bind]. rewrite R2, R3.
    assert (HF : forall s j, nth_error ["x"; "y"; "z"] j = Some s -> find_field (map fst all_props) s = Some j).
    { intros s j Hj. unfold find_field. rewrite props_names. destruct j as [|[|[|j]]]; [injection Hj as <-|injection Hj as <-|injection Hj as <-|destruct j; discriminate Hj]; reflexivity. }
    rewrite (HF "x" 0), (HF "y" 1), (HF "z" 2) by reflexivity. cbn [of_option bind].
    rewrite Hr. cbn [bind]. unfold stored_mesh.
    assert (ED : flat_map (fun jn => if smem (snd jn) ["x"; "y"; "z"] then [] else [(snd jn, column nk (map (map snd) (ply_rows nk m)) (fst jn))])
        (combine (seq 0 (length (map fst all_props))) (map fst all_props)) = stored_data m).
    { rewrite <- data_back. rewrite props_names. rewrite app_length. cbn [length Nat.add seq app combine flat_map snd fst].
      change (smem "x" ["x"; "y"; "z"]) with true. change (smem "y" ["x"; "y"; "z"]) with true. change (smem "z" ["x"; "y"; "z"]) with true. cbn [app].
      assert (HX : forall kv, In kv cols -> smem (fst kv) ["x"; "y"; "z"] = false).
      { intros kv Hk. apply Bool.not_true_iff_false. rewrite smem_In. now apply (col_in kv Hk). }
      rewrite map_length. clear - HX. generalize 3 as s. revert HX. generalize (map (map snd) (ply_rows nk m)) as rr. induction cols as [|kv l IH]; intros rr HX s; [reflexivity|].
      cbn [length seq map combine flat_map fst snd]. rewrite HX by now left. cbn [app]. f_equal. apply IH. intros; apply HX. now right. }
    rewrite ED. unfold check_mesh. cbn [o_data o_points o_cell_data o_cells].
    change (map (map snd) (ply_rows nk m)) with (map row_values (ply_rows nk m)). rewrite (picked m whole_points), data_lengths. reflexivity.
  - destruct Hr as (Eb & Hfl & Hi & acc & Ha & Eo). 
    assert (EM : forall X (a b : X), match pl_points nk m with [] => a | _ :: _ => b end = b).
    { intros X a b. pose proof (sb_some _ _ _ Hm) as Hne. destruct (pl_points nk m); [congruence|reflexivity]. }
    rewrite EM.
    eexists. split; [reflexivity|].
    set (RL := map (fun r => row_line (texts r)) (ply_rows nk m)).
    assert (ET : text_bytes (head_lines binary big stamp N0 all_props f ++ RL ++ fl) = text_bytes (head_lines binary big stamp N0 all_props f) ++ text_bytes (RL ++ fl)).
    { unfold text_bytes. now rewrite map_app, concat_app. }
    change (map (fun r : list (string * nk) => row_line (map (fun cv => num_text nk (fst cv) (snd cv)) r)) (ply_rows nk m)) with RL. rewrite ET.
    rewrite read_ply_start; [|exact Hs|exact props_words|exact Hf|apply text_bytes_byte|exact Hl]. rewrite Eb.
    assert (EL : to_lines (text_bytes (RL ++ fl)) = RL ++ fl ++ [""%string]).
    { rewrite <- (app_nil_r (text_bytes (RL ++ fl))). rewrite to_lines_text; [cbn [to_lines]; now rewrite <- app_assoc|].
      apply Forall_app. split; [|exact Hfl]. unfold RL. apply Forall_map. eapply Forall_impl; [|exact whole_good]. intros r Hg.
      apply one_line_row. now apply (texts_words good Hnum). }
    rewrite EL. unfold read_text, said. cbn [h_props h_verts h_faces h_fprops].
    rewrite (props_codes ply_to_numpy) by (intros c Hc; now apply type_name_ok). cbn [bind].
    rewrite names_distinct. cbn [negb].
    assert (EG : genfromtxt nk (map fst all_props) (row_codes m) N0 (RL ++ fl ++ [""%string]) = Ok (map (map snd) (ply_rows nk m), fl ++ [""%string])).
    { unfold N0, RL. rewrite <- (rows_length m). apply (genfromtxt_ok good Hnum); [exact rows_some|discriminate|exact whole_good|].
      exact (codes_rows m whole_cols whole_points). }
    rewrite EG. cbn [bind]. rewrite props_names. cbn [app coord_columns String.eqb Ascii.eqb Bool.eqb bind].
    assert (EK : forallb name_kept ("x" :: "y" :: "z" :: map fst cols)%string = true).
    { cbn [forallb]. change (name_kept "x") with true. change (name_kept "y") with true. change (name_kept "z") with true. cbn [andb].
      apply forallb_forall. intros s Hin. apply in_map_iff in Hin. destruct Hin as (kv & <- & Hk). apply simple_kept. now apply (col_in kv Hk). }
    rewrite EK. cbn [negb length app]. rewrite Hi. cbn [bind]. rewrite Ha. cbn [bind fst snd map].
    assert (ED : map (fun jn : nat * string => (snd jn, column nk (map (map snd) (ply_rows nk m)) (fst jn)))
               (skipn 3 (combine (seq 0 (S (S (S (length (map fst cols)))))) ("x" :: "y" :: "z" :: map fst cols)%string)) = stored_data m).
    { rewrite map_length. cbn [seq combine skipn]. exact data_back. }
    rewrite ED. rewrite map_length, (rows_length m). fold N0.
    assert (E1 : (Nat.eqb N0 1 && negb (Nat.eqb (length (stored_data m)) 0))%bool = false).
    { destruct (stored_data m) as [|kv l] eqn:Es; [apply Bool.andb_false_r|].
      pose proof (sb_two _ _ _ Hm Eb) as H2. rewrite Es in H2. specialize (H2 ltac:(discriminate)). fold N0 in H2.
      destruct (Nat.eqb_spec N0 1); [lia|reflexivity]. }
    rewrite E1. rewrite Eo. unfold check_mesh. cbn [o_data o_points o_cell_data o_cells].
    change (map (map snd) (ply_rows nk m)) with (map row_values (ply_rows nk m)). rewrite (picked m whole_points), data_lengths. reflexivity.
Qed.
End Whole.
