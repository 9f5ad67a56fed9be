(** Theorems about labels and names: C126. *)
From Verif Require Import PyBase LabelModel LabelFacts.
Local Open Scope string_scope.

(** the label assigned last is shown, whatever happens to name and unit *)
Theorem C126_given : forall pre post x f, x <> "" -> Forall (fun o => match o with SetLabel _ => False | _ => True end) post -> field_label (lab_run (pre ++ SetLabel (Some x) :: post)%list f) = x.
Proof. exact label_given. Qed.
Print Assumptions C126_given.
(** without one, or after None, it is made from the name and the unit of now *)
Theorem C126_made : forall l name unit, Forall (fun o => match o with SetLabel (Some x) => x = "" | _ => True end) l ->
  let f := lab_run l (new_labelled name unit) in field_label f = if String.eqb (lb_unit f) "" then lb_name f else (lb_name f ++ " [" ++ lb_unit f ++ "]").
Proof. exact label_made. Qed.
Print Assumptions C126_made.
Theorem C126_reset : forall pre post f, Forall (fun o => match o with SetLabel _ => False | _ => True end) post ->
  let g := lab_run (pre ++ SetLabel None :: post)%list f in field_label g = if String.eqb (lb_unit g) "" then lb_name g else (lb_name g ++ " [" ++ lb_unit g ++ "]").
Proof. exact label_reset. Qed.
Print Assumptions C126_reset.
Theorem C126_current : forall pre post x f, (Forall (fun o => match o with SetName _ => False | _ => True end) post -> lb_name (lab_run (pre ++ SetName x :: post)%list f) = x) /\
  (Forall (fun o => match o with SetUnit _ => False | _ => True end) post -> lb_unit (lab_run (pre ++ SetUnit x :: post)%list f) = x).
Proof. exact (fun pre post x f => conj (name_current pre post x f) (unit_current pre post x f)). Qed.
Print Assumptions C126_current.
Example C126_case : let l := [SetLabel (Some "E"); SetName "Ey"; SetUnit "V/m"] in
  field_label (lab_run l (new_labelled "a" "b")) = "E" /\ field_label (lab_run (l ++ [SetLabel None; SetName "Ez"])%list (new_labelled "a" "b")) = "Ez [V/m]" /\ field_label (lab_run (l ++ [SetLabel (Some ""); SetUnit ""])%list (new_labelled "a" "b")) = "Ey".
Proof. repeat split. Qed.
(** a label does not tell name and unit apart *)
Theorem C126_ambiguous_refuted : exists n u n' u', made_label n u = made_label n' u' /\ (n, u) <> (n', u').
Proof. exists "x", "m", "x [m]", "". split; [reflexivity|discriminate]. Qed.
Print Assumptions C126_ambiguous_refuted.
(** the name of a reader: the text of what was assigned last, or of the identifier if that was empty *)
Theorem C126_reader : forall l v r, (truthy v = true -> pystr v <> "") -> reader_name (fold_left set_name (l ++ [v])%list r) = PText (if truthy v then pystr v else pystr (nm_ident r)).
Proof. exact name_assigned. Qed.
Print Assumptions C126_reader.
(** a name given to the constructor is not made a text *)
Theorem C126_text_refuted : exists ident v, reader_name (mknamed ident v) <> PText (pystr v) /\ reader_name (set_name (mknamed ident PNone) v) = PText (pystr v).
Proof. exists (PText "run/0001.sdf"), (POther true "5"). split; [discriminate|reflexivity]. Qed.
Print Assumptions C126_text_refuted.
Example C126_reader_case : reader_name (fold_left set_name [PText "a"; POther true "5"] (mknamed (PText "f") PNone)) = PText "5" /\ reader_name (fold_left set_name [PText "a"; PNone] (mknamed (PText "f") PNone)) = PText "f" /\ reader_name (mknamed (PText "f") (PText "")) = PText "f".
Proof. repeat split. Qed.
