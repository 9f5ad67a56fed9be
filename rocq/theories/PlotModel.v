(** Model of what is drawn: postpic/plotting/plotter_matplotlib.py, addField1d (214-234), addFields1d (236-254),
    _addxlineout and _addylineout (257-280), addField2d (283-357), symmetricclim (196-210), plotFields1d
    (364-386), plotField (404-426).  The figure is the list of what is drawn on fresh axes.
    Not modelled: text, labels, color maps, xlim and ylim, contour lines, the pixels of color images,
    saving (PlotNameModel).  No proofs in this file. *)
From Verif Require Import PyBase NumpyModel NdModel AxisModel FieldModel HistddModel.

Inductive drawing :=
| Line (x y : list Q) (log : bool)                       (* ax.plot; set_yscale('log') *)
| Image (m : nda Q) (log : bool) (ex ey : Q * Q)         (* imshow, origin lower; log: of np.log10(m) *)
| Mesh (x y : list Q) (m : nda Q) (log : bool)           (* pcolormesh *)
| Color                                                  (* imshow of a color image *)
| Limits (lo hi : Q)                                     (* set_clim of the image *)
| LineoutX (x y : list Q) (log : bool)                   (* ax.plot on twinx *)
| LineoutY (x y : list Q) (log : bool)                   (* ax.plot on twiny *)
| NoData.                                                (* 'No data available.' *)
(** the keyword arguments which are given *)
Record kwargs := mkkw { k_log10plot : option bool; k_clim : option (Q * Q); k_lineoutx : option bool; k_lineouty : option bool; k_savecsv : option bool }.
Definition no_kwargs : kwargs := mkkw None None None None None.
Definition given {A} (a : option A) : bool := match a with Some _ => true | None => false end.
Definition orelse {A} (a : option A) (d : A) : A := match a with Some x => x | None => d end.

Definition values (a : nda Q) : list Q := map (a_at a) (all_idx (a_shape a)).
(** log10plot and no value below zero and any value above zero, 222-223 and 299-300 *)
Definition use_log (log10plot : bool) (l : list Q) : bool :=
  log10plot && negb (existsb (fun v => v <?q 0) l) && existsb (fun v => 0 <?q v) l.
(** addField1d; it has no parameters clim, lineoutx, lineouty, savecsv *)
Definition draw_1d (spl : spline_fn) (k : kwargs) (f : field Q) : res (list drawing) :=
  if given (k_clim k) || given (k_lineoutx k) || given (k_lineouty k) || given (k_savecsv k) then Err TypeError
  else
    let! g := field_squeeze spl f in
    let! _ := guard (dims (f_shape g) =? 1)%Z AssertionError in
    let! ax := getidx (f_axes g) 0 in
    let v := values (f_data g) in
    Ok [Line (ax_grid ax) v (use_log (orelse (k_log10plot k) true) v)].
(** matrix.T *)
Definition transposed (m : nda Q) : nda Q := nd_transpose [1; 0]%nat m.
(** m.mean(axis=0) of m = matrix.T: for each x the mean over y; and m.mean(axis=1) *)
Definition column (m : nda Q) (ny i : Z) : list Q := map (fun j => a_at m [j; i]) (zrange ny).
Definition row (m : nda Q) (nx j : Z) : list Q := map (fun i => a_at m [j; i]) (zrange nx).
(** 257-266 *)
Definition lineout_x (m : nda Q) (ny nx : Z) (e : Q * Q) (log : bool) : res drawing :=
  let lout := map (fun i => rmean (column m ny i)) (zrange nx) in
  let! x := np_linspace (fst e) (snd e) (Z.of_nat (length lout)) in
  Ok (LineoutX x lout log).
(** 269-280 *)
Definition lineout_y (m : nda Q) (ny nx : Z) (e : Q * Q) (log : bool) : res drawing :=
  let lout := map (fun j => rmean (row m nx j)) (zrange ny) in
  let! x := np_linspace (fst e) (snd e) (Z.of_nat (length lout)) in
  Ok (LineoutY x lout log).
(** 196-210; the limits of an image nobody has set are those of its data *)
Definition symmetric (l : list Q) : res drawing :=
  let! lo := np_min l in
  let! hi := np_max l in
  let bound := q_max (qabs lo) (qabs hi) in
  Ok (Limits (- bound) bound).
(** 290-291, 425 *)
Definition is_color (sh : list Z) : bool :=
  (dims sh =? 3)%Z && match sh with [_; _; n] => ((n =? 3) || (n =? 4))%Z | _ => false end.
(** addField2d; savecsv is accepted and not used *)
Definition draw_2d (spl : spline_fn) (k : kwargs) (f : field Q) : res (list drawing) :=
  let! g := field_squeeze spl f in
  let! _ := guard ((dims (f_shape g) =? 2)%Z || is_color (f_shape g)) AssertionError in
  let! lin := mapM islinear (f_axes g) in
  if is_color (f_shape g) then (if forallb (fun b => b) lin then Ok [Color] else Err ValueError)
  else
    let! ax := getidx (f_axes g) 0 in
    let! ay := getidx (f_axes g) 1 in
    let! nx := getidx (f_shape g) 0 in
    let! ny := getidx (f_shape g) 1 in
    let m := transposed (f_data g) in
    let log := use_log (orelse (k_log10plot k) true) (values (f_data g)) in
    let linear := forallb (fun b => b) lin in
    let im := if linear then Image m log (ax_extent ax) (ax_extent ay) else Mesh (ax_node ax) (ax_node ay) m log in
    let! lim := match k_clim k with
                | Some (lo, hi) => Ok [Limits lo hi]
                | None => if log then Ok []
                          else if linear then let! d := symmetric (values m) in Ok [d]
                          else Err IndexError           (* 208: a mesh is not among ax.images *)
                end in
    let! lx := if orelse (k_lineoutx k) false then let! d := lineout_x m ny nx (ax_extent ax) log in Ok [d] else Ok [] in
    let! ly := if orelse (k_lineouty k) false then let! d := lineout_y m ny nx (ax_extent ay) log in Ok [d] else Ok [] in
    Ok (im :: lim ++ lx ++ ly).
(** plotFields1d: the fields with their infos; the infos afterwards are part of the result *)
Fixpoint draw_fields (spl : spline_fn) (k : kwargs) (clear : bool) (fs : list (field Q * list string)) : res (list drawing * list (list string)) :=
  match fs with
  | [] => Ok ([], [])
  | (f, infos) :: r =>
      if (dims (f_shape f) <=? 0)%Z then
        let! di := draw_fields spl k clear r in Ok (fst di, infos :: snd di)
      else
        let! d := draw_1d spl k f in
        let! di := draw_fields spl k clear r in
        Ok (d ++ fst di, (if clear then [] else infos) :: snd di)
  end.
Fixpoint infos_eqb (a b : list string) : bool :=
  match a, b with
  | [], [] => true
  | x :: a, y :: b => String.eqb x y && infos_eqb a b
  | _, _ => false
  end.
Definition plot_fields_1d (spl : spline_fn) (k : kwargs) (fs : list (field Q * list string)) : res (list drawing * list (list string)) :=
  match fs with
  | [] => Err IndexError                                    (* 368: fields[0].name *)
  | (f0, i0) :: _ => draw_fields spl k (negb (forallb (fun f => infos_eqb (snd f) i0) fs)) fs
  end.
(** plotField, 404-426; [None] is no field.  What autoreduce returns is dropped (411) *)
Definition plot_field (fuel : nat) (spl : spline_fn) (autoreduce : bool) (maxlen : Z) (k : kwargs) (f : option (field Q)) : res (list drawing) :=
  match f with
  | None => Err AttributeError
  | Some f =>
      let! g := field_squeeze spl f in
      let! _ := if autoreduce then rmap (fun _ => tt) (field_autoreduce fuel spl g maxlen) else Ok tt in
      if (dims (f_shape g) <=? 0)%Z then Ok [NoData]
      else if (dims (f_shape g) =? 1)%Z then rmap fst (plot_fields_1d spl k [(g, [])])
      else if (dims (f_shape g) =? 2)%Z || is_color (f_shape g) then draw_2d spl k g
      else Err BareException
  end.
