(** Model of src/meshio/ansys/_ansys.py.  A file is its sequence of bytes, as a string (the bytes of binary sections are
    characters, too). *)
From Coq Require Import NArith.
From Verif.Lib Require Import Base Text Lines Bytes File Hex.
From Verif.Model Require Import Core Helpers Abaqus.

(** The type of the integers of a block of cells *)
Inductive int_kind : Type := I32 | I64 | OtherInt.
(** A mesh: [an_dim] is the number of columns of the points, [an_single] says that they are single precision numbers. *)
Record ansys_mesh (F : Type) : Type := AnsysMesh {
  an_dim : nat;
  an_single : bool;
  an_points : list (list F);
  an_cells : list (int_kind * block) }.
Arguments AnsysMesh {F} _ _ _ _.
Arguments an_dim {F} _.
Arguments an_single {F} _.
Arguments an_points {F} _.
Arguments an_cells {F} _.
Record ansys_out (F : Type) : Type := AnsysOut { ao_points : list (list F); ao_cells : list block }.
Arguments AnsysOut {F} _ _.
Arguments ao_points {F} _.
Arguments ao_cells {F} _.

(** src/meshio/ansys/_ansys.py:421-431 *)
Definition meshio_to_ansys_type : dict Z := [
  ("triangle", 1%Z); ("tetra", 2%Z); ("quad", 3%Z); ("hexahedron", 4%Z); ("pyramid", 5%Z); ("wedge", 6%Z) ].
(** src/meshio/ansys/_ansys.py:118-126: cells; "mixed" has no number of nodes *)
Definition ansys_cell_types : zdict (string * option nat) := [
  (0%Z, ("mixed", None)); (1%Z, ("triangle", Some 3)); (2%Z, ("tetra", Some 4)); (3%Z, ("quad", Some 4));
  (4%Z, ("hexahedron", Some 8)); (5%Z, ("pyramid", Some 5)); (6%Z, ("wedge", Some 6)) ].
(** src/meshio/ansys/_ansys.py:204-209: faces *)
Definition ansys_face_types : zdict (string * option nat) := [
  (0%Z, ("mixed", None)); (2%Z, ("line", Some 2)); (3%Z, ("triangle", Some 3)); (4%Z, ("quad", Some 4)) ].

Section Ansys.
(** [c4], [c8]: numbers in single and double precision *)
Context {fl : floats} (c4 c8 : codec fl).

(** ** Writing *)
Definition nl_ (s : string) : string := (s ++ String newline "")%string.
(** [a.tofile(f)]: the bytes of all items *)
Definition raw (b : bytes) : string := bytes_string b.
(** src/meshio/ansys/_ansys.py:408-419: the points *)
Definition ansys_points_text (binary : bool) (m : ansys_mesh fl) : string :=
  let n := Z.of_nat (length (an_points m)) in
  let head := ("(" ++ (if binary then "3010" else "10") ++ " (1 1 " ++ hex_of_Z n ++ " 1 " ++ hex_of_Z (Z.of_nat (an_dim m)) ++ ")(")%string in
  (nl_ head ++
   if binary then raw (concat (map (enc (if an_single m then c4 else c8)) (concat (an_points m)))) ++
                  String newline ")" ++ nl_ "End of Binary Section 3010)"
   else text_of (map (fun p => row_line (map ffmt p)) (an_points m)) ++ nl_ "))")%string.
(** src/meshio/ansys/_ansys.py:432-462: one block; its first cell has the number [first] *)
Definition ansys_key (binary : bool) (k : int_kind) : result string :=
  if binary then match k with I32 => Ok "2012" | I64 => Ok "3012" | OtherInt => Err KeyError end else Ok "12".
Definition int_width (k : int_kind) : nat := match k with I32 => 4 | _ => 8 end.
Definition ansys_block_text (binary : bool) (first : Z) (kb : int_kind * block) : result string :=
  let last := (first + Z.of_nat (blen (snd kb)) - 1)%Z in
  do key <- ansys_key binary (fst kb);
  do t <- of_option KeyError (dget (btype (snd kb)) meshio_to_ansys_type);
  let head := ("(" ++ key ++ " (1 " ++ hex_of_Z first ++ " " ++ hex_of_Z last ++ " 1 " ++ str_of_Z t ++ ")(")%string in
  let values := map (map (fun i => (i + 1)%Z)) (bdata (snd kb)) in
  Ok (nl_ head ++
      if binary then raw (concat (map (sint_bytes false (int_width (fst kb))) (concat values))) ++
                     String newline ")" ++ nl_ ("End of Binary Section " ++ key ++ ")")
      else text_of (map (fun c => row_line (map hex_of_Z c)) values) ++ nl_ "))")%string.
Fixpoint ansys_blocks_text (binary : bool) (first : Z) (kbs : list (int_kind * block)) : result string :=
  match kbs with
  | [] => Ok ""
  | kb :: kbs' => do s <- ansys_block_text binary first kb;
                  do r <- ansys_blocks_text binary (first + Z.of_nat (blen (snd kb)))%Z kbs'; Ok (s ++ r)%string
  end.
(** src/meshio/ansys/_ansys.py:391-462 [write]; [v] is the version of meshio *)
Definition write_ansys (v : string) (binary : bool) (m : ansys_mesh fl) : result string :=
  if negb (Nat.eqb (an_dim m) 2 || Nat.eqb (an_dim m) 3) then Err WriteError else
  let total := Z.of_nat (sum_nat (map (fun kb => blen (snd kb)) (an_cells m))) in
  let q := String (ascii_of_nat 34) "" in
  do cs <- ansys_blocks_text binary 0%Z (an_cells m);
  Ok (nl_ ("(1 " ++ q ++ "meshio " ++ v ++ q ++ ")") ++
      nl_ ("(2 " ++ str_of_nat (an_dim m) ++ ")") ++
      nl_ ("(10 (0 1 " ++ hex_of_Z (Z.of_nat (length (an_points m))) ++ " 0))") ++
      nl_ ("(12 (0 1 " ++ hex_of_Z total ++ " 0))") ++
      ansys_points_text binary m ++ cs)%string.

(** What [write] leaves in the file, which is emptied when it is opened (line 392), and whether it raises; the texts are
    those of [write_ansys]. *)
Fixpoint ansys_blocks_left (binary : bool) (first : Z) (kbs : list (int_kind * block)) : string * result unit :=
  match kbs with
  | [] => ("", Ok tt)
  | kb :: kbs' =>
      match ansys_block_text binary first kb with
      | Err e => ("", Err e)
      | Ok s => let r := ansys_blocks_left binary (first + Z.of_nat (blen (snd kb)))%Z kbs' in ((s ++ fst r)%string, snd r)
      end
  end.
Definition ansys_left (v : string) (binary : bool) (m : ansys_mesh fl) : string * result unit :=
  let q := String (ascii_of_nat 34) "" in
  let first := nl_ ("(1 " ++ q ++ "meshio " ++ v ++ q ++ ")") in
  if negb (Nat.eqb (an_dim m) 2 || Nat.eqb (an_dim m) 3) then (first, Err WriteError) else
  let total := Z.of_nat (sum_nat (map (fun kb => blen (snd kb)) (an_cells m))) in
  let r := ansys_blocks_left binary 0%Z (an_cells m) in
  ((first ++
    nl_ ("(2 " ++ str_of_nat (an_dim m) ++ ")") ++
    nl_ ("(10 (0 1 " ++ hex_of_Z (Z.of_nat (length (an_points m))) ++ " 0))") ++
    nl_ ("(12 (0 1 " ++ hex_of_Z total ++ " 0))") ++
    ansys_points_text binary m ++ fst r)%string, snd r).

(** ** Reading *)
(** [f.readline()]: up to and including the line feed; "" at the end of the file *)
Fixpoint readline (s : string) : string * string :=
  match s with
  | EmptyString => ("", "")
  | String c s' => if Ascii.eqb c newline then (String c "", s') else let r := readline s' in (String c (fst r), snd r)
  end.
Fixpoint count_char (c : ascii) (s : string) : nat :=
  match s with EmptyString => 0 | String a s' => (if Ascii.eqb a c then 1 else 0) + count_char c s' end.
(** src/meshio/ansys/_ansys.py:19-22 [_skip_to]: at the end of the file, reading goes on for ever.  [fuel]: the number of steps. *)
Fixpoint skip_to (fuel : nat) (c : ascii) (s : string) : result string :=
  match fuel with
  | O => Err OutOfFuel
  | S f => match s with
           | EmptyString => skip_to f c ""
           | String a s' => if Ascii.eqb a c then Ok s' else skip_to f c s'
           end
  end.
(** src/meshio/ansys/_ansys.py:25-31 [_skip_close]: the same *)
Fixpoint skip_close (fuel n : nat) (s : string) : result string :=
  match n with
  | O => Ok s
  | S n' =>
      match fuel with
      | O => Err OutOfFuel
      | S f => match s with
               | EmptyString => skip_close f n ""
               | String a s' => if Ascii.eqb a "(" then skip_close f (S n) s'
                                else if Ascii.eqb a ")" then skip_close f n' s' else skip_close f n s'
               end
      end
  end.
(** A line that is not blank; at the end of the file, reading goes on for ever. *)
Fixpoint filled_line (fuel : nat) (s : string) : result (string * string) :=
  match fuel with
  | O => Err OutOfFuel
  | S f => let r := readline s in if String.eqb (strip (fst r)) "" then filled_line f (snd r) else Ok r
  end.
(** [line.strip()[-1]] *)
Fixpoint last_char (s : string) : option ascii :=
  match s with EmptyString => None | String a "" => Some a | String _ s' => last_char s' end.
Definition ends_open (line : string) : bool := match last_char (strip line) with Some c => Ascii.eqb c "(" | None => false end.

(** The text before the first [c], and the text after it *)
Fixpoint before_char (c : ascii) (s : string) : option (string * string) :=
  match s with
  | EmptyString => None
  | String a s' => if Ascii.eqb a c then Some (""%string, s') else option_map (fun r => (String a (fst r), snd r)) (before_char c s')
  end.
(** The regular expressions of lines 41, 103 and 192: blanks, an opening bracket, blanks, the key with prefix nothing, 20 or 30, blanks,
    and a text in brackets: the prefix and that text *)
Definition drop_open (s : string) : option string := match lstrip s with String "(" s' => Some (lstrip s') | _ => None end.
Fixpoint snd_str (k : nat) (s : string) : string :=
  match k with O => s | S k' => match s with EmptyString => "" | String _ s' => snd_str k' s' end end.
Definition key_prefix (key s : string) : option (string * string) :=
  if String.prefix key s then Some (""%string, snd_str (String.length key) s)
  else if String.prefix ("20" ++ key) s then Some ("20"%string, snd_str (2 + String.length key) s)
  else if String.prefix ("30" ++ key) s then Some ("30"%string, snd_str (2 + String.length key) s)
  else None.
Definition section_head (key : string) (line : string) : option (string * string) :=
  match drop_open line with
  | None => None
  | Some s => match key_prefix key s with
              | None => None
              | Some (p, s1) => match lstrip s1 with
                                | String "(" s2 => option_map (fun r => (p, fst r)) (before_char ")" s2)
                                | _ => None
                                end
              end
  end.
(** The numbers of the head; AssertionError if there is no head, ReadError if there are not enough of them.  [some]: the brackets must
    not be empty. *)
Definition section_args (some : bool) (key line : string) : result (string * list Z) :=
  do h <- of_option AssertionError (section_head key line);
  if some && String.eqb (snd h) "" then Err AssertionError else
  do a <- mapM (fun w => of_option ValueError (parse_hex w)) (split_ws (snd h));
  if Nat.leb (length a) 4 then Err ReadError else Ok (fst h, a).
Definition declaration (line : string) : bool := Nat.eqb (count_char "(" line) (count_char ")" line).

(** [n] lines of [w] words each; [skip]: blank lines are passed over *)
Fixpoint word_lines {A} (fuel : nat) (skip : bool) (parse : list string -> result A) (n : nat) (s : string) : result (list A * string) :=
  match n with
  | O => Ok ([], s)
  | S n' => do r <- (if skip then filled_line fuel s else Ok (readline s));
            do x <- parse (split_ws (fst r));
            do q <- word_lines fuel skip parse n' (snd r); Ok (x :: fst q, snd q)
  end.
(** [np.fromfile(f, count=n*w, dtype)] in rows of [w]: [k] bytes per item; ValueError (reshape) if there are not enough *)
Fixpoint take_str (k : nat) (s : string) : option (string * string) :=
  match k with
  | O => Some (""%string, s)
  | S k' => match s with EmptyString => None | String a s' => option_map (fun r => (String a (fst r), snd r)) (take_str k' s') end
  end.
Fixpoint raw_items {A} (dec_ : bytes -> A) (k n : nat) (s : string) : result (list A * string) :=
  match n with
  | O => Ok ([], s)
  | S n' => do r <- of_option ValueError (take_str k s); do q <- raw_items dec_ k n' (snd r); Ok (dec_ (string_bytes (fst r)) :: fst q, snd q)
  end.
Fixpoint raw_rows {A} (dec_ : bytes -> A) (k n w : nat) (s : string) : result (list (list A) * string) :=
  match n with
  | O => Ok ([], s)
  | S n' => do r <- raw_items dec_ k w s; do q <- raw_rows dec_ k n' w (snd r); Ok (fst r :: fst q, snd q)
  end.
Definition fixed {A} (w : nat) (parse : list string -> result (list A)) (ws : list string) : result (list A) :=
  if Nat.eqb (length ws) w then parse ws else Err ReadError.
Definition parse_hexes (ws : list string) : result (list Z) := mapM (fun w => of_option ValueError (parse_hex w)) ws.
Definition arg (k : nat) (a : list Z) : Z := nth k a 0%Z.

(** src/meshio/ansys/_ansys.py:34-94 [_read_points]; the state is (first index of all, last index).  Simplification: a negative number of
    points or columns is a ValueError. *)
Definition read_ansys_points (fuel : nat) (line : string) (first last : option Z) (s : string)
  : result (option (nat * list (list fl)) * option Z * option Z * string) :=
  if declaration line then Ok (None, None, None, s) else
  do pa <- section_args false "10" line;
  let '(p, a) := pa in
  let first' := match first with None => Some (arg 1 a) | _ => first end in
  if match last with Some l => negb (Z.eqb (l + 1) (arg 1 a)) | None => false end then Err ReadError else
  let n := (arg 2 a - arg 1 a + 1)%Z in
  do s1 <- (if ends_open line then Ok s else skip_to fuel "(" s);
  if (n <? 0)%Z || (arg 4 a <? 0)%Z then Err ValueError else
  let dim := Z.to_nat (arg 4 a) in
  do r <- (if String.eqb p "" then word_lines fuel true (fixed dim parse_floats) (Z.to_nat n) s1
           else if String.eqb p "20" then raw_rows (dec c4) 4 (Z.to_nat n) dim s1
           else raw_rows (dec c8) 8 (Z.to_nat n) dim s1);
  do s2 <- skip_close fuel 2 (snd r);
  Ok (Some (dim, fst r), first', Some (arg 2 a), s2).

(** src/meshio/ansys/_ansys.py:131-141: the opening bracket; None if something else than blanks comes first (a declaration) *)
Fixpoint find_open (fuel : nat) (s : string) : result (option string * string) :=
  match fuel with
  | O => Err OutOfFuel
  | S f => match s with
           | EmptyString => do r <- skip_to f ")" ""; Ok (None, r)
           | String a s' => if Ascii.eqb a "(" then Ok (Some s', s')
                            else if is_space a then find_open f s' else do r <- skip_to f ")" s'; Ok (None, r)
           end
  end.
(** src/meshio/ansys/_ansys.py:97-180 [_read_cells].  Simplification: a negative number of cells is a ValueError. *)
Definition read_ansys_cells (fuel : nat) (line : string) (s : string) : result (option block * string) :=
  if declaration line then Ok (None, s) else
  do pa <- section_args true "12" line;
  let '(p, a) := pa in
  let n := (arg 2 a - arg 1 a + 1)%Z in
  if Z.eqb (arg 3 a) 0 then Ok (None, s) else
  do kn <- of_option KeyError (zget (arg 4 a) ansys_cell_types);
  do o <- (if ends_open line then Ok (Some s, s) else find_open fuel s);
  match o with
  | (None, s1) => Ok (None, s1)
  | (Some s1, _) =>
      match snd kn with
      | None => do s2 <- skip_close fuel 2 s1; Ok (None, s2)
      | Some w =>
          if (n <? 0)%Z then Err ValueError else
          do r <- (if String.eqb p "" then word_lines fuel false (fixed w parse_hexes) (Z.to_nat n) s1
                   else raw_rows (sint_value false) (if String.eqb p "20" then 4 else 8) (Z.to_nat n) w s1);
          do s2 <- skip_close fuel 2 (snd r); Ok (Some (Block (fst kn) (fst r)), s2)
      end
  end.

(** src/meshio/ansys/_ansys.py:228-255: faces of mixed types: type, nodes, two adjacent cells *)
Definition mixed_face (ws : list string) : result (string * cell) :=
  match ws with
  | [] => Err IndexError
  | w0 :: _ =>
      do t <- of_option ValueError (parse_hex w0);
      if Z.eqb t 0 then Err ReadError else
      do kn <- of_option KeyError (zget t ansys_face_types);
      let n := match snd kn with Some n => n | None => 0 end in
      if Nat.eqb (length ws) (n + 3) then do c <- parse_hexes (slice 1 (n + 1) ws); Ok (fst kn, c) else Err ReadError
  end.
Definition by_type (fs : list (string * cell)) : list block :=
  map (fun kv => Block (fst kv) (snd kv)) (fold_left (fun d tc => dset (fst tc) (match dget (fst tc) d with Some l => l | None => [] end ++ [snd tc]) d) fs []).
(** src/meshio/ansys/_ansys.py:183-295 [_read_faces] *)
Definition read_ansys_faces (fuel : nat) (line : string) (s : string) : result (list block * string) :=
  if declaration line then Ok ([], s) else
  do pa <- section_args true "13" line;
  let '(p, a) := pa in
  let n := (arg 2 a - arg 1 a + 1)%Z in
  do kn <- of_option KeyError (zget (arg 4 a) ansys_face_types);
  do s1 <- (if ends_open line then Ok s else skip_to fuel "(" s);
  do r <- match snd kn with
          | None => if String.eqb p "" then do q <- word_lines fuel true mixed_face (Z.to_nat n) s1; Ok (by_type (fst q), snd q)
                    else Err ReadError
          | Some w =>
              if (n <? 0)%Z then Err ValueError else
              do q <- (if String.eqb p "" then
                         word_lines fuel false (fixed (w + 2) (fun ws => parse_hexes (firstn w ws))) (Z.to_nat n) s1
                       else do x <- raw_rows (sint_value false) (if String.eqb p "20" then 4 else 8) (Z.to_nat n) (w + 2) s1;
                            Ok (map (firstn w) (fst x), snd x));
              Ok ([Block (fst kn) (fst q)], snd q)
          end;
  do s2 <- skip_close fuel 2 (snd r); Ok (fst r, s2).

(** [re.match("(|20|30)KEY", index)] *)
Definition index_is (key index : string) : bool := match key_prefix key index with Some _ => true | None => false end.
Fixpoint digits (s : string) : string :=
  match s with String a s' => match digit_val a with Some _ => String a (digits s') | None => "" end | EmptyString => "" end.
Record ansys_state : Type := AnsysState {
  as_points : list (nat * list (list fl)); as_cells : list block; as_first : option Z; as_last : option Z }.
(** src/meshio/ansys/_ansys.py:298-388 [read], the loop over the sections *)
Fixpoint ansys_loop (k fuel : nat) (st : ansys_state) (s : string) : result ansys_state :=
  match k with
  | O => Err OutOfFuel
  | S k' =>
      let '(line, rest) := readline s in
      if String.eqb line "" then Ok st
      else if String.eqb (strip line) "" then ansys_loop k' fuel st rest
      else
        do index <- match drop_open line with
                    | Some t => match digits t with EmptyString => Err ReadError | d => Ok d end
                    | None => Err ReadError
                    end;
        let skip := do s2 <- skip_close fuel (count_char "(" line - count_char ")" line) rest; ansys_loop k' fuel st s2 in
        if smem index ["0"; "1"; "2"] then skip
        else if index_is "10" index then
          do r <- read_ansys_points fuel line (as_first st) (as_last st) rest;
          let '(pts, first, last, s2) := r in
          ansys_loop k' fuel (AnsysState (as_points st ++ match pts with Some p => [p] | None => [] end) (as_cells st) first last) s2
        else if index_is "12" index then
          do r <- read_ansys_cells fuel line rest;
          ansys_loop k' fuel (AnsysState (as_points st) (as_cells st ++ match fst r with Some b => [b] | None => [] end) (as_first st) (as_last st)) (snd r)
        else if index_is "13" index then
          do r <- read_ansys_faces fuel line rest;
          ansys_loop k' fuel (AnsysState (as_points st) (as_cells st ++ fst r) (as_first st) (as_last st)) (snd r)
        else if String.eqb index "45" then ansys_loop k' fuel st rest
        else skip
  end.
(** src/meshio/ansys/_ansys.py:377-388: concatenate the points (ValueError without any, or if the numbers of columns differ) and subtract
    the first index (TypeError if it is not known) *)
Definition ansys_finish (st : ansys_state) : result (ansys_out fl) :=
  match as_points st with
  | [] => Err ValueError
  | (d, _) :: _ =>
      if forallb (fun p => Nat.eqb (fst p) d) (as_points st) then
        do bs <- mapM (fun b => match as_first st with
                                | Some f => Ok (Block (btype b) (map (map (fun i => (i - f)%Z)) (bdata b)))
                                | None => Err TypeError
                                end) (as_cells st);
        Ok (AnsysOut (concat (map snd (as_points st))) bs)
      else Err ValueError
  end.
Definition read_ansys (fuel : nat) (s : string) : result (ansys_out fl) :=
  do st <- ansys_loop fuel fuel (AnsysState [] [] None None) s; ansys_finish st.
End Ansys.
