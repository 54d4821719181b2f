(** What the programs of Concurrent.v are asked to do, for property C52. *)
From Verif Require Import GoStr Sorting Types TvWriter Concurrent.
Local Open Scope string_scope.

(** The slices that tag-value writing sorts are sorted already. *)
Definition document_sorted (d : Document) : Prop :=
  ordered edr_DocumentRefID (d_ExternalDocumentReferences d) /\
  ordered f_SPDXIdentifier (d_Files d) /\
  ordered p_SPDXIdentifier (d_Packages d) /\
  Forall (fun p : Package => ordered f_SPDXIdentifier (p_Files p)) (d_Packages d).

(** [p], started in the memory [m], writes to no location. *)
Fixpoint reads_only (p : prog) (m : mem) : Prop :=
  match p with
  | Halt => True
  | Get l k => reads_only (k (m l)) m
  | Put _ _ _ => False
  | Out _ k => reads_only k m
  end.

(** A way of sorting by [key] that does not write to slices that are sorted. *)
Definition leaves_sorted (key : elem -> string) (sorting : (nat -> loc) -> nat -> prog -> prog) : Prop :=
  forall at_ n k m, ordered key (cells at_ n m) -> reads_only k m ->
  reads_only (sorting at_ n k) m /\ snd (run (sorting at_ n k) m) = snd (run k m).

(** the number of steps [p] takes, started in [m] *)
Fixpoint steps (p : prog) (m : mem) : nat :=
  match p with
  | Halt => 0
  | Get l k => S (steps (k (m l)) m)
  | Put l x k => S (steps k (upd l x m))
  | Out _ k => S (steps k m)
  end.

(** [i] occurs in [s] at least [n] times *)
Definition turns (s : list nat) (i : nat) : nat := count_occ Nat.eq_dec s i.
