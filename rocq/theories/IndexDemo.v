(** A directory with two files. *)
From Verif Require Import PyBase IndexModel.
Local Open Scope string_scope.
Local Open Scope nat_scope.

Definition fields : string * h5 nat nat := ("Fields0.h5", [("data", Group 0); ("data/0000000000", Group 5); ("data/0000000000/Ex", Dataset 1); ("data/0000000000/Ey", Dataset 2)]).
Definition track : string * h5 nat nat := ("TrackParticles.h5", [("data", Group 0); ("data/0000000000", Group 5); ("data/0000000000/mass", Const 3); ("latest_IDs", Dataset 4)]).
Definition case_dir : dir nat nat := mkdir [fields; track] None.
