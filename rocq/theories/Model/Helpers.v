(** Model of src/meshio/_helpers.py: format registry, read and write dispatch. *)
From Verif.Lib Require Import Base Text.
From Verif.Model Require Import Core.

Section Registry.
Context {R W : Type}.   (* reader and writer functions *)

(** The three module-level dictionaries, src/meshio/_helpers.py:14-16. *)
Record registry : Type := Registry {
  ext_map : dict (list string);    (* extension_to_filetypes *)
  reader_map : dict R;
  writer_map : dict W
}.

Definition empty_registry : registry := Registry [] [] [].

(** src/meshio/_helpers.py:22-25: one iteration over [extensions]. *)
Definition add_ext (fmt : string) (m : dict (list string)) (ext : string)
  : dict (list string) :=
  let m1 := match dget ext m with None => dset ext [] m | Some _ => m end in
  match dget ext m1 with
  | Some l => dset ext (l ++ [fmt]) m1
  | None => m1
  end.

(** src/meshio/_helpers.py:19-30 [register_format] *)
Definition register_format (fmt : string) (extensions : list string) (reader : option R)
    (wm : dict W) (r : registry) : registry :=
  Registry (fold_left (add_ext fmt) extensions (ext_map r))
           (match reader with Some f => dset fmt f (reader_map r) | None => reader_map r end)
           (dupdate (writer_map r) wm).

(** [list.remove(x)]: the first occurrence. *)
Fixpoint remove_first (x : string) (l : list string) : list string :=
  match l with
  | [] => []
  | y :: ys => if String.eqb x y then ys else y :: remove_first x ys
  end.

(** src/meshio/_helpers.py:33-42 [deregister_format] *)
Definition deregister_format (fmt : string) (r : registry) : registry :=
  Registry (map (fun kv => (fst kv, if smem fmt (snd kv)
                                    then remove_first fmt (snd kv) else snd kv)) (ext_map r))
           (if dmem fmt (reader_map r) then ddel fmt (reader_map r) else reader_map r)
           (if dmem fmt (writer_map r) then ddel fmt (writer_map r) else writer_map r).

(** ** Paths.  Simplification: a path is its final component [Path.name]; letters are
    ASCII ([str.lower] on other letters is not modelled). *)
Definition lower_ascii (a : ascii) : ascii :=
  let n := nat_of_ascii a in
  if andb (Nat.leb 65 n) (Nat.leb n 90) then ascii_of_nat (n + 32) else a.
Fixpoint lower (s : string) : string :=
  match s with
  | EmptyString => EmptyString
  | String a s' => String (lower_ascii a) (lower s')
  end.

(** [name.lstrip('.')] *)
Fixpoint lstrip_dot (s : string) : string :=
  match s with
  | String "."%char s' => lstrip_dot s'
  | _ => s
  end.
Fixpoint ends_with_dot (s : string) : bool :=
  match s with
  | EmptyString => false
  | String a EmptyString => Ascii.eqb a "."
  | String _ s' => ends_with_dot s'
  end.

(** pathlib [PurePath.suffixes] (CPython 3.8-3.12), used by _helpers.py:48 *)
Definition suffixes (name : string) : list string :=
  if ends_with_dot name then []
  else map (fun x => String "." x) (tl (split_char "." (lstrip_dot name))).

(** src/meshio/_helpers.py:46-53: the loop over [reversed(path.suffixes)]; [ext] is the
    accumulated extension. *)
Fixpoint filetypes_loop (m : dict (list string)) (ext : string) (sufs : list string)
  : list string :=
  match sufs with
  | [] => []
  | s :: ss =>
      let ext' := lower (s ++ ext)%string in
      match dget ext' m with Some l => l | None => [] end ++ filetypes_loop m ext' ss
  end.

(** src/meshio/_helpers.py:45-57 [_filetypes_from_path] *)
Definition filetypes_from_path (r : registry) (name : string) : result (list string) :=
  match filetypes_loop (ext_map r) "" (rev (suffixes name)) with
  | [] => Err ReadError
  | l => Ok l
  end.
End Registry.
Arguments registry : clear implicits.
Arguments Registry {R W} _ _ _.

(** ** Reading.  A reader is an oracle from the file to an outcome. *)
Section Read.
Context {File M W : Type}.
Definition reader := File -> result M.

(** src/meshio/_helpers.py:98-114, the loop over candidate formats; returns the
    formats whose reader was called (in order) and the outcome. *)
Fixpoint try_formats (rm : dict reader) (f : File) (fmts : list string)
  : list string * result M :=
  match fmts with
  | [] => ([], Err SystemExit)
  | fmt :: rest =>
      match dget fmt rm with
      | None => ([], Err ReadError)
      | Some rd =>
          match rd f with
          | Err ReadError => let '(tr, out) := try_formats rm f rest in (fmt :: tr, out)
          | out => ([fmt], out)
          end
      end
  end.

(** [if file_format:] - the empty string counts as not given. *)
Definition given (o : option string) : option string :=
  match o with Some "" => None | o => o end.

(** src/meshio/_helpers.py:88-114 [_read_file] *)
Definition read_file (r : registry reader W) (exists_ : bool) (name : string)
    (fmt : option string) (f : File) : list string * result M :=
  if negb exists_ then ([], Err ReadError) else
  match given fmt with
  | Some ff => try_formats (reader_map r) f [ff]
  | None => match filetypes_from_path r name with
            | Err e => ([], Err e)
            | Ok fmts => try_formats (reader_map r) f fmts
            end
  end.

(** src/meshio/_helpers.py:74-85 [_read_buffer] *)
Definition read_buffer (r : registry reader W) (fmt : option string) (f : File)
  : list string * result M :=
  match fmt with
  | None => ([], Err ReadError)
  | Some ff =>
      if String.eqb ff "tetgen" then ([], Err ReadError) else
      match dget ff (reader_map r) with
      | None => ([], Err ReadError)
      | Some rd => ([ff], rd f)
      end
  end.
End Read.
Arguments reader : clear implicits.

(** ** Writing *)

(** A block as write() sees it: type and numpy shape of its data. *)
Record wblock : Type := WBlock { wtype : string; wshape : list nat }.

(** src/meshio/_helpers.py:173-185, the shape check of one block. *)
Definition check_block (b : wblock) : result unit :=
  match dget (wtype b) num_nodes_per_cell with
  | Some n =>
      match nth_error (wshape b) 1 with
      | None => Err IndexError
      | Some w => if Nat.eqb w n then Ok tt else Err WriteError
      end
  | None => Ok tt
  end.

Fixpoint check_blocks (bs : list wblock) : result unit :=
  match bs with
  | [] => Ok tt
  | b :: bs' => do _ <- check_block b; check_blocks bs'
  end.

Section Write.
Context {R W : Type}.
(** Target of a write: an open buffer, or a path (its final component). *)
Inductive target : Type := Buffer | PathTo (name : string).

(** src/meshio/_helpers.py:151-164: the format to use. *)
Definition write_format (r : registry R W) (t : target) (fmt : option string)
  : result (option string) :=
  match t with
  | Buffer =>
      match fmt with
      | None => Err WriteError
      | Some ff => if String.eqb ff "tetgen" then Err WriteError else Ok (Some ff)
      end
  | PathTo name =>
      match given fmt with
      | Some ff => Ok (Some ff)
      | None => do fmts <- filetypes_from_path r name; Ok (hd_error fmts)
      end
  end.

(** src/meshio/_helpers.py:142-188 [write]: [Ok w] means that the writer [w] is called
    (line 188), [Err e] that [e] is raised before any writer is called. *)
Definition write (r : registry R W) (t : target) (fmt : option string) (bs : list wblock)
  : result W :=
  do ff <- write_format r t fmt;
  match ff with
  | None => Err IndexError
  | Some f =>
      match dget f (writer_map r) with
      | None => Err WriteError
      | Some w => do _ <- check_blocks bs; Ok w
      end
  end.
End Write.
