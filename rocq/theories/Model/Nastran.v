(** Model of src/meshio/nastran/_nastran.py.  A file is the list of its lines (without the line terminator). *)
From Verif.Lib Require Import Base Text Lines Hex.
From Verif.Model Require Import Core Tables Abaqus Snoc.

(** The fields of a mesh that the format uses: points and their number of coordinates, blocks, and the references (the point data and cell data
    of the name nastran:ref). *)
Record nas_mesh (F : Type) : Type := NasMesh {
  nm_dim : nat; nm_points : list (list F); nm_cells : list block; nm_prefs : option (list Z); nm_crefs : option (list (list Z)) }.
Arguments NasMesh {F} _ _ _ _ _.
Arguments nm_dim {F} _.
Arguments nm_points {F} _.
Arguments nm_cells {F} _.
Arguments nm_prefs {F} _.
Arguments nm_crefs {F} _.
(** A mesh that was read, with the numbers of the points and cells in the file ([mesh.points_id], [mesh.cells_id]) *)
Record nas_read (F : Type) : Type := NasRead {
  nr_points : list (list F); nr_cells : list block; nr_prefs : option (list Z); nr_crefs : option (list (list Z));
  nr_point_ids : list Z; nr_cell_ids : list (list Z) }.
Arguments NasRead {F} _ _ _ _ _ _.
Arguments nr_points {F} _.
Arguments nr_cells {F} _.
Arguments nr_prefs {F} _.
Arguments nr_crefs {F} _.
Arguments nr_point_ids {F} _.
Arguments nr_cell_ids {F} _.

(** ** The order of the nodes *)
(** src/meshio/nastran/_nastran.py:473-505 [_convert_to_vtk_ordering] and 508-540 [_convert_to_nastran_ordering] *)
Definition hexa_order : list nat := [0;1;2;3;4;5;6;7;8;9;10;11;16;17;18;19;12;13;14;15].
Definition penta_order : list nat := [0;1;2;3;4;5;6;7;8;12;13;14;9;10;11].
Definition to_vtk_ordering (t : string) (c : cell) : result cell :=
  if smem t ["CTRAX6"; "CTRIAX6"] then of_option IndexError (permute [0;2;4;1;3;5] c)
  else if String.eqb t "CHEXA_" then of_option IndexError (permute hexa_order c)
  else if String.eqb t "CPENTA_" then of_option IndexError (permute penta_order c)
  else Ok c.
Definition to_nastran_ordering (t : string) (c : cell) : result cell :=
  if smem t ["CTRAX6"; "CTRIAX6"] then of_option IndexError (permute [0;3;1;4;2;5] c)
  else if String.eqb t "CHEXA_" then of_option IndexError (permute hexa_order c)
  else if String.eqb t "CPENTA_" then of_option IndexError (permute penta_order c)
  else Ok c.

Section Nastran.
Context {fl : floats}.
(** [f"{x:f}"]; [ffmt] is [np.format_float_scientific(x, exp_digits=1, precision=11)] with E for e *)
Variable ffix : fl -> string.

(** ** Writing *)
Inductive nas_format : Type := Free | Small | Large.
Definition blanks (n : nat) : string := String.concat "" (repeat " " n).
(** [{:<w}] and [{:>w}] *)
Definition pad_right (w : nat) (s : string) : string := (s ++ blanks (w - String.length s))%string.
Definition pad_left (w : nat) (s : string) : string := (blanks (w - String.length s) ++ s)%string.
(** src/meshio/nastran/_nastran.py:387-388 [_float_rstrip], 391-417 [_float_to_nastran_string] *)
Definition float_rstrip (x : fl) : string := substring 0 8 (rstrip_char "0" (ffix x)).
Definition float_text (f : nas_format) (x : fl) : result string :=
  match f with
  | Small => Ok (float_rstrip x)
  | _ => if Nat.leb (String.length (ffmt x)) 16 then Ok (ffmt x) else Err AssertionError
  end.
(** src/meshio/nastran/_nastran.py:297-305,340-344: a point *)
Definition grid_lines (f : nas_format) (id : nat) (pref : string) (x y z : string) : list string :=
  match f with
  | Free => [join "," ["GRID"; str_of_nat id; pref; x; y; z]]
  | Small => ["GRID    " ++ pad_right 8 (str_of_nat id) ++ pad_right 8 pref ++ pad_left 8 x ++ pad_left 8 y ++ pad_left 8 z]%string
  | Large => ["GRID*   " ++ pad_right 16 (str_of_nat id) ++ pad_right 16 pref ++ pad_left 16 x ++ pad_left 16 y; "*       " ++ pad_left 16 z]%string
  end.
Definition point_lines (f : nas_format) (prefs : option (list Z)) (kx : nat * list fl) : result (list string) :=
  do fx <- mapM (float_text f) (snd kx);
  do pref <- match prefs with Some l => do r <- of_option IndexError (nth_error l (fst kx)); Ok (str_of_Z r) | None => Ok "" end;
  do x <- of_option IndexError (nth_error fx 0);
  do y <- of_option IndexError (nth_error fx 1);
  do z <- of_option IndexError (nth_error fx 2);
  Ok (grid_lines f (S (fst kx)) pref x y z).
(** src/meshio/nastran/_nastran.py:309-320,361-382: a cell; [nipl1] has no value in the free format *)
Definition nas_width (f : nas_format) : nat := match f with Large => 16 | _ => 8 end.
Definition node_fields (w : nat) (c : list Z) : string := String.concat "" (map (fun i => pad_right w (str_of_Z i)) c).
Definition flag (cchar k : string) (id : nat) : string := (cchar ++ k ++ pad_right 6 (hex_of_Z (Z.of_nat id)))%string.
Definition cell_lines (f : nas_format) (t : string) (id : nat) (ref : string) (c : cell) : result (list string) :=
  do c1 <- to_nastran_ordering t (map (fun i => i + 1)%Z c);
  match f with
  | Free => Err UnboundLocalError
  | _ =>
      let w := nas_width f in
      let n1 := match f with Large => 2 | _ => 6 end in
      let n2 := match f with Large => 6 | _ => 14 end in
      let cchar := match f with Large => "*" | _ => "+" end in
      let info := (pad_right 8 t ++ pad_right w (str_of_nat id) ++ pad_right w ref)%string in
      let f1 := flag cchar "1" id in
      let f2 := flag cchar "2" id in
      if Nat.ltb n1 (length c1) then
        if Nat.ltb n2 (length c1) then
          Ok [info ++ node_fields w (firstn n1 c1) ++ f1; f1 ++ node_fields w (slice n1 n2 c1) ++ f2; f2 ++ node_fields w (skipn n2 c1)]%string
        else Ok [info ++ node_fields w (firstn n1 c1) ++ f1; f1 ++ node_fields w (slice n1 n2 c1)]%string
      else Ok [info ++ node_fields w (firstn n1 c1)]%string
  end.
(** src/meshio/nastran/_nastran.py:347-382: the loops over blocks and cells; [id]: the number of the next cell, [k]: the number of the block *)
Fixpoint write_cells (f : nas_format) (t : string) (refs : option (list Z)) (cs : list cell) (ic id : nat) : result (list string) :=
  match cs with
  | [] => Ok []
  | c :: cs' =>
      do ref <- match refs with Some l => do r <- of_option IndexError (nth_error l ic); Ok (str_of_Z r) | None => Ok "" end;
      do ls <- cell_lines f t id ref c;
      do rest <- write_cells f t refs cs' (S ic) (S id);
      Ok (ls ++ rest)
  end.
Fixpoint write_blocks (f : nas_format) (crefs : option (list (list Z))) (bs : list block) (k id : nat) : result (list string) :=
  match bs with
  | [] => Ok []
  | b :: bs' =>
      do t <- of_option KeyError (dget (btype b) meshio_to_nastran_type);
      let t1 := match f with Large => (t ++ "*")%string | _ => t end in
      do refs <- match crefs with Some l => do r <- of_option IndexError (nth_error l k); Ok (Some r) | None => Ok None end;
      do ls <- write_cells f t1 refs (bdata b) 0 id;
      do rest <- write_blocks f crefs bs' (S k) (id + length (bdata b));
      Ok (ls ++ rest)
  end.
(** src/meshio/nastran/_nastran.py:296-384 [write]; [version]: the version of meshio.  Other names of formats (RuntimeError) are not modelled. *)
Definition write_nastran (version : string) (pf cf : nas_format) (m : nas_mesh fl) : result (list string) :=
  let points := if Nat.eqb (nm_dim m) 2 then map (fun p => p ++ [fzero]) (nm_points m) else nm_points m in
  do ps <- mapM (point_lines pf (nm_prefs m)) (enumerate points);
  do cs <- write_blocks cf (nm_crefs m) (nm_cells m) 0 1;
  Ok (("$ Nastran file written by meshio v" ++ version)%string :: "BEGIN BULK" :: concat ps ++ cs ++ ["ENDDATA"]).

(** ** Reading *)
(** src/meshio/nastran/_nastran.py:460-470 [_chunk_line] *)
Definition chunk_line (l : string) : list string :=
  if char_in "," l then split_char "," l else map string_of_list_ascii (chunks 8 (list_ascii_of_string l)).
(** Lines that are skipped (lines 111-117, 138-139); the length includes the line terminator. *)
Definition skipped (l : string) : bool :=
  Nat.ltb (String.length l) 3 || startswith l "$" || startswith l "//" || startswith l "#".
(** src/meshio/nastran/_nastran.py:56-61 *)
Fixpoint find_bulk (ls : list string) : result (list string) :=
  match ls with
  | [] => Err RuntimeError
  | l :: ls' => if startswith (strip l) "BEGIN BULK" then Ok ls' else find_bulk ls'
  end.
(** src/meshio/nastran/_nastran.py:111-117: at the end of the file [readline] returns an empty line again and again. *)
Fixpoint skip_lines (fuel : nat) (ls : list string) : result (string * list string) :=
  match fuel with
  | O => Err OutOfFuel
  | S n => match ls with
           | [] => skip_lines n []
           | l :: ls' => if skipped l then skip_lines n ls' else Ok (l, ls')
           end
  end.
(** A row of a card: the fields of a line; None for the fields that mark continuations *)
Definition row := list (option string).
Definition row_of (l : string) : row := map Some (chunk_line l).
Definition marked (r : row) : row := match r with _ :: r' => None :: r' | [] => [] end.
Definition unflagged (r : row) : row := if Nat.eqb (length r) 10 then firstn 9 r ++ [None] else r.
(** src/meshio/nastran/_nastran.py:141-173: a card with its last row, and the next line: the card with the next line, or None *)
Definition eight : string := "        ".
Definition continued (card : list row * row) (l : string) : result (option (list row * row)) :=
  let (pre, r) := card in
  if startswith l "+" || startswith l "*" then
    if Nat.ltb 10 (length r) then Err AssertionError else Ok (Some (pre ++ [unflagged r], marked (row_of l)))
  else if Nat.eqb (length r) 10 && match nth_error r 9 with Some (Some s) => String.eqb s eight | _ => false end then
    match chunk_line l with
    | s :: _ => if String.eqb s eight then Ok (Some (pre ++ [unflagged r], marked (row_of l))) else Ok None
    | [] => Ok None
    end
  else Ok None.
(** src/meshio/nastran/_nastran.py:175-207: two fields of eight characters each *)
Definition two (a b : option string) : option string :=
  match a, b with Some x, Some y => Some (x ++ y)%string | _, _ => None end.
Definition merged (r : row) : row :=
  match r with
  | [] => []
  | c0 :: r' =>
      c0 :: match r' with
            | [] => [] | [a] => [a]
            | a :: b :: r2 => two a b ::
              match r2 with
              | [] => [] | [a] => [a]
              | a :: b :: r3 => two a b ::
                match r3 with
                | [] => [] | [a] => [a]
                | a :: b :: r4 => two a b ::
                  match r4 with
                  | [] => [] | [a] => [a]
                  | a :: b :: r5 => two a b :: match r5 with [] => [] | c9 :: _ => [c9] end
                  end
                end
              end
            end
  end.
(** src/meshio/nastran/_nastran.py:209-216: the stripped fields of a card *)
Definition fields (card : list row * row) : list string :=
  let rows := fst card ++ [snd card] in
  let rows' := match rows with
               | (Some s :: _) :: _ => if startswith s "GRID*" then map merged rows else rows
               | _ => rows
               end in
  flat_map (fun o => match o with Some s => [strip s] | None => [] end) (concat rows').
(** src/meshio/nastran/_nastran.py:452-457 [_nastran_string_to_float] *)
Fixpoint exponents (s : string) : string :=
  match s with
  | EmptyString => ""
  | String a s' =>
      if Ascii.eqb a "+" then String "e" (String "+" (exponents s'))
      else if Ascii.eqb a "-" then String "e" (String "-" (exponents s')) else String a (exponents s')
  end.
Definition nas_float (s : string) : result fl :=
  match fparse (strip s) with
  | Some v => Ok v
  | None => match strip s with
            | EmptyString => Err IndexError
            | String a s' => of_option ValueError (fparse (String a (exponents s')))
            end
  end.
(** The state of the reader: points with their numbers, references, blocks, numbers of the cells, references of the cells *)
Record nas_state : Type := NasState {
  ns_points : list (Z * list fl); ns_prefs : list Z; ns_cells : list block; ns_ids : list (list Z); ns_crefs : list (list Z) }.
Definition nas_start : nas_state := NasState [] [] [] [] [].
Definition last_type (bs : list block) : option string := match rev bs with b :: _ => Some (btype b) | [] => None end.
Definition extend_last {A} (x : A) (l : list (list A)) : result (list (list A)) :=
  match rev l with [] => Err IndexError | y :: r => Ok (rev r ++ [y ++ [x]]) end.
(** src/meshio/nastran/_nastran.py:73-109 [add_cell] *)
Definition second_order (t : string) : option (string * string) :=
  dget t [("tetra", ("tetra10", "CTETRA_")); ("pyramid", ("pyramid13", "CPYRA_")); ("wedge", ("wedge15", "CPENTA_")); ("hexahedron", ("hexahedron20", "CHEXA_"))].
Definition add_cell (nt : string) (id : Z) (ref : option Z) (nodes : list string) (s : nas_state) : result nas_state :=
  do t0 <- of_option KeyError (dget nt nastran_to_meshio_type);
  do c0 <- mapM py_int nodes;
  do n <- of_option KeyError (dget t0 num_nodes_per_cell);
  do tn <- (if Nat.ltb n (length c0) then of_option AssertionError (second_order t0) else Ok (t0, nt));
  do c <- to_vtk_ordering (snd tn) c0;
  let same := match last_type (ns_cells s) with Some t => String.eqb t (fst tn) | None => false end in
  do ids <- (if same then extend_last id (ns_ids s) else Ok (ns_ids s ++ [[id]]));
  do crefs <- match ref with
              | Some r => if same then extend_last r (ns_crefs s) else Ok (ns_crefs s ++ [[r]])
              | None => Ok (ns_crefs s)
              end;
  Ok (NasState (ns_points s) (ns_prefs s) (snoc_cell (ns_cells s) (fst tn) c) ids crefs).
(** src/meshio/nastran/_nastran.py:218-253: one card *)
Definition field (fs : list string) (i : nat) : result string := of_option IndexError (nth_error fs i).
Definition opt_int (s : string) : result (option Z) :=
  match s with EmptyString => Ok None | _ => do z <- py_int s; Ok (Some z) end.
Definition bars : list string := ["CBAR"; "CBEAM"; "CBUSH"; "CBUSH1D"; "CGAP"].
Definition card_done (card : list row * row) (s : nas_state) : result nas_state :=
  let fs := fields card in
  do keyword <- field fs 0;
  if smem keyword ["GRID"; "GRID*"] then
    do i <- bind (field fs 1) py_int;
    do r <- bind (field fs 2) opt_int;
    do x <- mapM nas_float (slice 3 6 fs);
    Ok (NasState (ns_points s ++ [(i, x)]) (ns_prefs s ++ match r with Some z => [z] | None => [] end) (ns_cells s) (ns_ids s) (ns_crefs s))
  else if dmem keyword nastran_to_meshio_type then
    do i <- bind (field fs 1) py_int;
    do r <- bind (field fs 2) opt_int;
    let nodes := if smem keyword bars then slice 3 5 fs else skipn 3 fs in
    add_cell keyword i r (filter (fun x => negb (String.eqb x "")) nodes) s
  else Ok s.
(** src/meshio/nastran/_nastran.py:119-253: the loop over the cards *)
Fixpoint read_cards (card : list row * row) (s : nas_state) (ls : list string) : result nas_state :=
  match ls with
  | [] => Err ReadError
  | l :: ls' =>
      if skipped l then read_cards card s ls' else
      do c <- continued card l;
      match c with
      | Some card' => read_cards card' s ls'
      | None =>
          do s1 <- card_done card s;
          if startswith l "ENDDATA" then Ok s1 else read_cards ([], row_of l) s1 ls'
      end
  end.
(** src/meshio/nastran/_nastran.py:255-269: [np.array] of rows of different lengths raises ValueError; every number is looked up in the table
    of the points (the last point of a number counts); [np.vectorize] refuses an empty array. *)
Definition same_lengths {A} (l : list (list A)) : bool := match l with r :: l' => forallb (fun x => Nat.eqb (length x) (length r)) l' | [] => true end.
Definition number_table (ids : list Z) : zdict Z := fold_left (fun d ik => zset (snd ik) (Z.of_nat (fst ik)) d) (enumerate ids) [].
Definition renumber (tbl : zdict Z) (b : block) : result block :=
  match concat (bdata b) with
  | [] => Err ValueError
  | _ => do cs <- mapM (mapM (fun i => of_option KeyError (zget i tbl))) (bdata b); Ok (Block (btype b) cs)
  end.
(** src/meshio/nastran/_nastran.py:54-281 [read_buffer]; [fuel]: bound for the number of lines that are skipped before the first card *)
Definition read_nastran (fuel : nat) (ls : list string) : result (nas_read fl) :=
  do ls1 <- find_bulk ls;
  do ll <- skip_lines fuel ls1;
  do s <- (if startswith (fst ll) "ENDDATA" then Ok nas_start else read_cards ([], row_of (fst ll)) nas_start (snd ll));
  if negb (same_lengths (map snd (ns_points s))) then Err ValueError else
  if negb (forallb (fun b => same_lengths (bdata b)) (ns_cells s)) then Err ValueError else
  do bs <- make_blocks (map (fun b => (btype b, bdata b)) (ns_cells s));
  let ids := map fst (ns_points s) in
  do cells <- mapM (renumber (number_table ids)) bs;
  Ok (NasRead (map snd (ns_points s)) cells (match ns_prefs s with [] => None | l => Some l end)
        (match ns_crefs s with [] => None | l => Some l end) ids (ns_ids s)).
End Nastran.
