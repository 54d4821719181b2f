(** * What a user can read from a converted document.

    A value is read by following a path of fields, indices and keys, as in
    [doc.Packages[2].Files[0].FileName]. Reading through a nil pointer, or at a
    key that is not there, gives the zero value. *)
From Verif Require Import GoStr Types TvUtil TvParser Convert.

Inductive step := Fld (n : string) | Idx (i : nat) | Key (k : string).

(** what a pointer points to *)
Definition target (t : gty) (v : gval) : gty * gval :=
  match t with
  | TPtr u => (u, match v with VPtr w => w | _ => zero u end)
  | _ => (t, v)
  end.
Definition scalar (t : gty) : bool := match t with TStr | TBool | TInt => true | _ => false end.

(** the scalar at a path; [None] for an index out of range *)
Fixpoint get (t : gty) (v : gval) (p : list step) : option gval :=
  match p with
  | [] => let (t', v') := target t v in if scalar t' then Some v' else None
  | s :: r =>
      match s, target t v with
      | Fld n, (TStruct ts, VStruct fs) =>
          match assoc n ts, assoc n fs with Some u, Some x => get u x r | _, _ => None end
      | Idx i, (TSlice u, VSlice l) => match nth_error l i with Some x => get u x r | None => None end
      | Key k, (TMap u, VMap m) => match assoc k m with Some x => get u x r | None => get u (zero u) r end
      | Key _, (TMap u, VNil) => get u (zero u) r
      | _, _ => None
      end
  end.
(** paths to the scalars of a type *)
Fixpoint path_of (t : gty) (p : list step) : bool :=
  match p with
  | [] => scalar (base t)
  | s :: r =>
      match s, base t with
      | Fld n, TStruct ts => match assoc n ts with Some u => path_of u r | None => false end
      | Idx _, TSlice u => path_of u r
      | Key _, TMap u => path_of u r
      | _, _ => false
      end
  end.

(** values of a type *)
Inductive typed : gty -> gval -> Prop :=
| ty_str s : typed TStr (VStr s)
| ty_bool b : typed TBool (VBool b)
| ty_int n : typed TInt (VInt n)
| ty_nil_ptr t : typed (TPtr t) VNil
| ty_nil_slice t : typed (TSlice t) VNil
| ty_nil_map t : typed (TMap t) VNil
| ty_ptr t v : typed t v -> typed (TPtr t) (VPtr v)
| ty_slice t l : Forall (typed t) l -> typed (TSlice t) (VSlice l)
| ty_map t m : NoDup (map fst m) -> Forall (fun e => typed t (snd e)) m -> typed (TMap t) (VMap m)
| ty_struct ts fs : Forall2 (fun f e => fst f = fst e /\ typed (snd f) (snd e)) ts fs -> typed (TStruct ts) (VStruct fs).

(** no pointer to an empty structure and no nil in a map *)
Inductive solid : gval -> Prop :=
| so_str s : solid (VStr s)
| so_bool b : solid (VBool b)
| so_int n : solid (VInt n)
| so_nil : solid VNil
| so_ptr v : is_zero v = false -> solid v -> solid (VPtr v)
| so_slice l : Forall solid l -> solid (VSlice l)
| so_map m : Forall (fun e => snd e <> VNil /\ solid (snd e)) m -> solid (VMap m)
| so_struct fs : Forall (fun e => solid (snd e)) fs -> solid (VStruct fs).

(** the order of the versions *)
Inductive older : version -> version -> Prop :=
| older_12 : older V21 V22
| older_23 : older V22 V23
| older_13 : older V21 V23.

(** [solid] decided *)
Fixpoint solidb (v : gval) : bool :=
  match v with
  | VStr _ | VBool _ | VInt _ | VNil => true
  | VPtr w => negb (is_zero w) && solidb w
  | VSlice l => (fix go (l : list gval) := match l with [] => true | x :: r => solidb x && go r end) l
  | VMap m => (fix go (m : list (string * gval)) :=
      match m with [] => true | (_, x) :: r => (match x with VNil => false | _ => true end) && solidb x && go r end) m
  | VStruct fs => (fix go (m : list (string * gval)) := match m with [] => true | (_, x) :: r => solidb x && go r end) fs
  end.
