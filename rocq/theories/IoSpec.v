(** What the theorems about files speak of. *)
From Coq Require Import String Ascii List ZArith QArith.
From Verif Require Import PyBase AxisModel AxisSpec NdModel FieldModel FieldSpec IoModel.
Import ListNotations.

Definition same_numbers (a b : axis) : Prop :=
  ax_node b = ax_node a /\ ax_grid b = ax_grid a /\ ax_n b = ax_n a /\ fst (ax_extent b) == fst (ax_extent a) /\ snd (ax_extent b) == snd (ax_extent a).
(** all but the names and units of the axes *)
Definition same_but_names {V} (f g : field V) : Prop :=
  f_data g = f_data f /\ f_ats g = f_ats f /\ f_tao g = f_tao f /\ l_name (f_top g) = l_name (f_top f) /\ l_unit (f_top g) = l_unit (f_top f) /\
  Forall2 same_numbers (f_axes f) (f_axes g).
Definition short (s : string) : Prop := (String.length s <= 1)%nat.

(** a text file whose numbers can be read again: no blank, no comma, not empty *)
Fixpoint has (d : ascii) (s : string) : bool := match s with EmptyString => false | String c r => if Ascii.eqb c d then true else has d r end.
Definition readable (fmt : Q -> string) (parse : string -> option Q) (d : ascii) (q : Q) : Prop :=
  parse (fmt q) = Some q /\ fmt q <> ""%string /\ has d (fmt q) = false.

(** position of component c of grid point (i, j, k) *)
Definition position (ncomp nx ny i j k c : nat) : nat := (ncomp * (i + nx * (j + ny * k)) + c)%nat.
(** where a reader of the format puts point i of axis number a *)
Definition located (ds : dataset) (a i : nat) : option Q :=
  match ds with
  | Structured n o s =>
      match nth_error n a, nth_error o a, nth_error s a with
      | Some m, Some x, Some h => if (Z.of_nat i <? m)%Z then Some (x + inject_Z (Z.of_nat i) * h) else None
      | _, _, _ => None
      end
  | Rectilinear g => match nth_error g a with Some l => nth_error l i | None => None end
  end.
Definition oeq (x y : option Q) : Prop := match x, y with Some a, Some b => a == b | None, None => True | _, _ => False end.
(** the grid of axis a of a field with two or three axes; a missing third axis is the point 0 *)
Definition coordinate {V} (f : field V) (a i : nat) : option Q :=
  match nth_error (f_axes f) a with
  | Some ax => nth_error (ax_grid ax) i
  | None => match i with O => Some 0%Q | _ => None end
  end.
Definition ascending_even (ax : axis) : Prop :=
  exists x h, 0 < h /\ (forall i, (i < length (ax_grid ax))%nat -> nth i (ax_grid ax) 0 == x + inject_Z (Z.of_nat i) * h) /\
    forall i, (i < length (ax_node ax))%nat -> nth i (ax_node ax) 0 == x - (1 # 2) * h + inject_Z (Z.of_nat i) * h.

(** a field that can be written: its attributes fit together and it holds an array *)
Definition ready {V} (f : field V) : Prop := consistent f /\ Forall axis_proper (f_axes f) /\ f_inner f = [].
(** a shape of two or three dimensions as one of three *)
Definition three (sh : list Z) : list Z := sh ++ repeat 1%Z (3 - length sh).
(** number of points, number of components, and every value where the format wants it; components
    beyond the fields given are zero *)
Definition lists_values {V} (zero : V) (fields : list (field V)) (ncomp : nat) (sh : list Z) (v : vtk V) : Prop :=
  v_comps v = ncomp /\ v_points v = zprod sh /\ Z.of_nat (length (v_values v)) = (v_points v * Z.of_nat ncomp)%Z /\
  forall nx ny nz c i j k, three sh = [Z.of_nat nx; Z.of_nat ny; Z.of_nat nz] -> (c < ncomp)%nat -> (i < nx)%nat -> (j < ny)%nat -> (k < nz)%nat ->
    nth_error (v_values v) (position ncomp nx ny i j k c) =
    Some (match nth_error fields c with Some f => a_at (f_data f) (firstn (length sh) [Z.of_nat i; Z.of_nat j; Z.of_nat k]) | None => zero end).
Definition locates_points {V} (f0 : field V) (v : vtk V) : Prop := forall a i, (a < 3)%nat -> oeq (located (v_set v) a i) (coordinate f0 a i).
(** fields on one grid *)
Definition on_one_grid {V} (f0 : field V) (fields : list (field V)) : Prop := forall f, In f fields -> ready f /\ f_shape f = f_shape f0 /\ f_axes f = f_axes f0.
