(** The writer of SVG pictures, src/meshio/svg/_svg.py (C80).  Simplifications: coordinates are rational numbers with exact
    arithmetic (in the code, doubles); the output is the list of attributes and texts of the elements, not the characters
    that ElementTree writes for them. *)
From Coq Require Import QArith Qabs String.
From Verif.Lib Require Import Base Runs Text.
From Verif.Model Require Import Core.
Import ListNotations.
Open Scope nat_scope.

(** The elements that are written: the attribute viewBox of the root, the text of the style element, the attributes d of
    the path elements. *)
Record svg : Type := Svg { viewbox : string; style : string; paths : list string }.

(** _svg.py:12-24: the options.  [so_fmt] is the function that formats a number with float_fmt, [so_str] is [str]. *)
Record svg_options : Type := SvgOptions {
  so_fmt : Q -> string;
  so_str : Q -> string;
  so_stroke_width : option string;
  so_image_width : option Q;
  so_fill : string;
  so_stroke : string }.

(** [np.min] and [np.max] of a column; 0 without points (_svg.py:33-36) *)
Definition qmin (a b : Q) : Q := if Qle_bool a b then a else b.
Definition qmax (a b : Q) : Q := if Qle_bool a b then b else a.
Definition column_min (l : list Q) : Q := match l with [] => 0%Q | x :: r => fold_left qmin r x end.
Definition column_max (l : list Q) : Q := match l with [] => 0%Q | x :: r => fold_left qmax r x end.

(** _svg.py:25-30: the check; [np.allclose(z, 0, rtol=0, atol=1e-14)].  All points have [dim] coordinates
    ([mesh.points.shape[1]]). *)
Definition tolerance : Q := (1 # 100000000000000)%Q.
Definition flat (dim : nat) (pts : list (list Q)) : bool :=
  negb (Nat.eqb dim 3) || forallb (fun p => Qle_bool (Qabs (nth 2 p 0%Q)) tolerance) pts.

(** _svg.py:78-100: the formats for the three types *)
Definition corner_text (fmt : Q -> string) (letter : string) (p : Q * Q) : string :=
  (letter ++ " " ++ fmt (fst p) ++ " " ++ fmt (snd p))%string.
Definition corners_of (t : string) : option nat :=
  if String.eqb t "line" then Some 2 else if String.eqb t "triangle" then Some 3 else if String.eqb t "quad" then Some 4 else None.
(** [fmt.format]: too few arguments raise IndexError, further arguments are ignored *)
Definition path_text (fmt : Q -> string) (t : string) (ps : list (Q * Q)) : result string :=
  match corners_of t with
  | None => Ok ""%string
  | Some n =>
      if Nat.ltb (length ps) n then Err IndexError else
      match firstn n ps with
      | [] => Ok ""%string
      | p :: r =>
          Ok (corner_text fmt "M" p ++ String.concat "" (map (corner_text fmt "L") r) ++ (if Nat.eqb n 2 then "" else "Z"))%string
      end
  end.
(** _svg.py:75-107: the loop over the blocks *)
Definition block_paths (fmt : Q -> string) (pts : list (Q * Q)) (b : block) : result (list string) :=
  match corners_of (btype b) with
  | None => Ok []
  | Some _ => mapM (fun c => do ps <- mapM (fun i => of_option IndexError (znth pts i)) c; path_text fmt (btype b) ps) (bdata b)
  end.

(** _svg.py:12-110 [write].  Points with fewer than two coordinates raise IndexError.  [ints] says that the points are an array of
    integers: then [pts *= scaling_factor] raises UFuncTypeError, which is a TypeError. *)
Definition write_svg (o : svg_options) (ints : bool) (dim : nat) (points : list (list Q)) (cells : list block) : result svg :=
  if negb (flat dim points) then Err WriteError else
  if Nat.ltb dim 2 then Err IndexError else
  let xs := map (fun p => nth 0 p 0%Q) points in
  let ys := map (fun p => nth 1 p 0%Q) points in
  let min_x := column_min xs in let max_x := column_max xs in
  let min_y := column_min ys in let max_y := column_max ys in
  let pts := map (fun p => (nth 0 p 0, max_y + min_y - nth 1 p 0)%Q) points in
  let width := (max_x - min_x)%Q in let height := (max_y - min_y)%Q in
  do scaled <-
    match so_image_width o with
    | Some iw =>
        if Qeq_bool width 0 then Ok (min_x, min_y, width, height, pts) else
        if ints then Err TypeError else
        let s := (iw / width)%Q in
        Ok (min_x * s, min_y * s, width * s, height * s, map (fun p => (fst p * s, snd p * s)) pts)%Q
    | None => Ok (min_x, min_y, width, height, pts)
    end;
  let '(min_x, min_y, width, height, pts) := scaled in
  let sw := match so_stroke_width o with Some w => w | None => so_str o (width / 100)%Q end in
  let st := ("path {" ++ join "; " ["fill: " ++ so_fill o; "stroke: " ++ so_stroke o; "stroke-width: " ++ sw; "stroke-linejoin:bevel"] ++ "}")%string in
  do ps <- mapM (block_paths (so_fmt o) pts) cells;
  Ok (Svg (join " " (map (so_fmt o) [min_x; min_y; width; height])) st (concat ps)).
