(** Labels of axes and fields, datahandling.py 286-292, 574, 930-944, and names of readers,
    datareader/datareader.py 85-88, 265-275, 326-328, 349-359.  No proofs in this file. *)
From Verif Require Import PyBase.
Local Open Scope string_scope.

(** Axis.label, and the label of a Field without one of its own *)
Definition made_label (name unit : string) : string := if String.eqb unit "" then name else (name ++ " [" ++ unit ++ "]")%string.
Record labelled := mklab { lb_label : option string; lb_name : string; lb_unit : string }.
(** Field.__init__: _label = None *)
Definition new_labelled (name unit : string) : labelled := mklab None name unit.
(** Field.label *)
Definition field_label (f : labelled) : string :=
  match lb_label f with
  | Some x => if String.eqb x "" then made_label (lb_name f) (lb_unit f) else x
  | None => made_label (lb_name f) (lb_unit f)
  end.
(** f.label = x, f.name = x, f.unit = x *)
Inductive lab_op := SetLabel (x : option string) | SetName (x : string) | SetUnit (x : string).
Definition lab_step (f : labelled) (o : lab_op) : labelled :=
  match o with
  | SetLabel x => mklab x (lb_name f) (lb_unit f)
  | SetName x => mklab (lb_label f) x (lb_unit f)
  | SetUnit x => mklab (lb_label f) (lb_name f) x
  end.
Definition lab_run (l : list lab_op) (f : labelled) : labelled := fold_left lab_step l f.

(** python objects as far as bool() and str() go: None, texts, others *)
Inductive pyobj := PNone | PText (s : string) | POther (truth : bool) (text : string).
Definition truthy (v : pyobj) : bool := match v with PNone => false | PText s => negb (String.eqb s "") | POther b _ => b end.
Definition pystr (v : pyobj) : string := match v with PNone => "None" | PText s => s | POther _ t => t end.
(** a Dumpreader or a Simulationreader *)
Record named := mknamed { nm_ident : pyobj; nm_name : pyobj }.
Definition reader_name (r : named) : pyobj := if truthy (nm_name r) then nm_name r else PText (pystr (nm_ident r)).
Definition set_name (r : named) (v : pyobj) : named := mknamed (nm_ident r) (if truthy v then PText (pystr v) else PNone).
