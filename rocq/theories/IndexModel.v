(** Model of the index file over the files of a Smilei simulation: postpic/datareader/smileih5.py,
    _generateh5indexfile (37-70), _getindexfile (73-86), and its use in SmileiReader.__init__ (116-122) and
    SmileiSeries.__init__ (385-391).  A file is the list of its objects in the order of h5py's visit, groups
    before what is in them, every key once.  Attributes and contents are left abstract.  Not modelled: how
    HDF5 resolves the file name of a link, groups HDF5 makes on the way to a key.  The exception for a name
    which exists already differs between versions of h5py; it is RuntimeError here.
    No proofs in this file. *)
From Verif Require Import PyBase IoModel.

(** a data set, a group which stands for a constant (attribute 'value'), another group with attributes *)
Inductive obj (D A : Type) := Dataset (d : D) | Const (d : D) | Group (a : A).
Arguments Dataset {D A} d. Arguments Const {D A} d. Arguments Group {D A} a.
Definition h5 (D A : Type) := list (string * obj D A).
(** what is in the index: links to an object of a file, groups with attributes *)
Inductive entry (A : Type) := Link (file key : string) | Grp (a : A).
Arguments Link {A} file key. Arguments Grp {A} a.
Definition index (A : Type) := list (string * entry A).
Fixpoint find {X} (k : string) (l : list (string * X)) : option X :=
  match l with [] => None | (k', x) :: r => if String.eqb k k' then Some x else find k r end.
(** the key is below a link, where nothing can be made *)
Definition below_link {A} (ih : index A) (key : string) : bool :=
  existsb (fun e => match snd e with Link _ _ => String.prefix (fst e ++ "/") key | Grp _ => false end) ih.
Definition taken {A} (ih : index A) (key : string) : bool := match find key ih with Some _ => true | None => false end.
(** visitf, 51-65 *)
Definition visit {D A} (fname : string) (ih : index A) (ko : string * obj D A) : res (index A) :=
  let (key, o) := ko in
  if endswith key "latest_IDs" then Ok ih
  else match o with
       | Dataset _ | Const _ => if taken ih key || below_link ih key then Err RuntimeError else Ok (ih ++ [(key, Link fname key)])
       | Group a => if taken ih key then Ok ih else if below_link ih key then Err RuntimeError else Ok (ih ++ [(key, Grp a)])
       end.
(** 67-70: the objects of all files, one after the other; what is in the index stays there when a visit
    raises *)
Definition visits {D A} (files : list (string * h5 D A)) : list (string * (string * obj D A)) :=
  flat_map (fun f => map (pair (fst f)) (snd f)) files.
Fixpoint fill {D A} (todo : list (string * (string * obj D A))) (ih : index A) : index A * res unit :=
  match todo with
  | [] => (ih, Ok tt)
  | (fname, ko) :: r => match visit fname ih ko with Ok ih => fill r ih | Err e => (ih, Err e) end
  end.
(** The directory: its h5 files without the index, and the index if there is one *)
Record dir (D A : Type) := mkdir { d_files : list (string * h5 D A); d_index : option (index A) }.
Arguments mkdir {D A}. Arguments d_files {D A}. Arguments d_index {D A}.
(** _getindexfile, 73-86; [listing]: the files in the order of glob.glob *)
Definition getindex {D A} (listing : list (string * h5 D A)) (d : dir D A) : dir D A * res unit :=
  match d_index d with
  | Some _ => (d, Ok tt)
  | None => let (ih, r) := fill (visits listing) [] in (mkdir (d_files d) (Some ih), r)
  end.
(** the process is ended after some of the visits *)
Definition interrupted {D A} (n : nat) (listing : list (string * h5 D A)) (d : dir D A) : dir D A :=
  match d_index d with
  | Some _ => d
  | None => mkdir (d_files d) (Some (fst (fill (firstn n (visits listing)) [])))
  end.
(** the object under a key of the index: links are followed into the files as they are now *)
Definition lookup {D A} (d : dir D A) (key : string) : res (obj D A) :=
  match d_index d with
  | None => Err IOError
  | Some ih => match find key ih with
               | None => Err KeyError
               | Some (Grp a) => Ok (Group a)
               | Some (Link f k) => match find f (d_files d) with
                                    | None => Err KeyError
                                    | Some objs => match find k objs with Some o => Ok o | None => Err KeyError end
                                    end
               end
  end.
(** The history of a directory.  The simulation writes an object: a new one at the end of a file or of a
    new file, or new contents.  Somebody opens the directory, possibly for a short time only *)
Fixpoint put {X} (k : string) (x : X) (l : list (string * X)) : list (string * X) :=
  match l with [] => [(k, x)] | (k', y) :: r => if String.eqb k k' then (k, x) :: r else (k', y) :: put k x r end.
Inductive event (D A : Type) :=
| Write (file key : string) (o : obj D A)
| Open (order : list (string * h5 D A) -> list (string * h5 D A))
| Killed (n : nat) (order : list (string * h5 D A) -> list (string * h5 D A)).
Arguments Write {D A}. Arguments Open {D A}. Arguments Killed {D A}.
Definition happen {D A} (d : dir D A) (e : event D A) : dir D A :=
  match e with
  | Write f k o => mkdir (put f (put k o (match find f (d_files d) with Some l => l | None => [] end)) (d_files d)) (d_index d)
  | Open order => fst (getindex (order (d_files d)) d)
  | Killed n order => interrupted n (order (d_files d)) d
  end.
