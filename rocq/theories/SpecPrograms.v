(** * Specification of the example programs that compare and count licenses. *)
From Verif Require Import GoStr Sorting Types SpecUtils SpecTools SpecReport.
Local Open Scope string_scope.

(** ** What a document is about *)
(** [ids]: what the relationships say that the document describes *)
Inductive ends : list Relationship -> list string -> Prop :=
| ends_nil : ends [] []
| ends_take r rs id ids : says_described r id -> ends rs ids -> ends (r :: rs) (id :: ids)
| ends_skip r rs ids : (forall id, ~ says_described r id) -> ends rs ids -> ends (r :: rs) ids.
(** the only package, or else the described elements in order, one for each
    relationship *)
Definition topics (doc : Document) (ids : list string) : Prop :=
  (exists p, d_Packages doc = [p] /\ ids = [p_SPDXIdentifier p]) \/
  (2 <= List.length (d_Packages doc) /\ ids <> [] /\ ordered (fun x => x) ids /\
   exists l, ends (d_Relationships doc) l /\ Permutation ids l).

(** ** Comparing two documents *)
(** what can be said of a package of the first document, and of the second *)
Inductive verdict :=
| Unknown (id : string)
| Alone (id name : string)
| Compared (id name : string) (first_only second_only different same : nat).
(** the first package of an identifier *)
Definition is_package (doc : Document) (id : string) (p : Package) : Prop :=
  exists before after, d_Packages doc = (before ++ p :: after)%list /\ p_SPDXIdentifier p = id /\
    forall q, In q before -> p_SPDXIdentifier q <> id.
Definition no_package (doc : Document) (id : string) : Prop := forall p, In p (d_Packages doc) -> p_SPDXIdentifier p <> id.
(** there are [n] names with a property *)
Definition number_of (P : string -> Prop) (n : nat) : Prop := exists l, NoDup l /\ (forall x, In x l <-> P x) /\ List.length l = n.
(** a name of a file of either package, with the licenses [a] and [b] *)
Definition licensed_as (p1 p2 : Package) (name a b : string) : Prop :=
  (has_file p1 name \/ has_file p2 name) /\ license_for p1 name a /\ license_for p2 name b.
Definition says (d1 d2 : Document) (id : string) (v : verdict) : Prop :=
  (no_package d1 id /\ v = Unknown id) \/
  (exists p1, is_package d1 id p1 /\ no_package d2 id /\ v = Alone id (p_PackageName p1)) \/
  (exists p1 p2 n1 n2 n3 n4, is_package d1 id p1 /\ is_package d2 id p2 /\ v = Compared id (p_PackageName p1) n1 n2 n3 n4 /\
     number_of (fun x => exists a, licensed_as p1 p2 x a "" /\ a <> "") n1 /\
     number_of (fun x => exists b, licensed_as p1 p2 x "" b /\ b <> "") n2 /\
     number_of (fun x => exists a b, licensed_as p1 p2 x a b /\ a <> "" /\ b <> "" /\ a <> b) n3 /\
     number_of (fun x => exists a, licensed_as p1 p2 x a a) n4).

(** ** Texts *)
Definition line (s : string) : string := s ++ LF.
Definition first_text (v : verdict) : string :=
  line "================================" ++
  match v with
  | Unknown id => line ("Package " ++ id ++ " has described relationship in first document but ID not found")
  | Alone id name => line ("Package " ++ id ++ " (" ++ name ++ ")") ++ line "  Found in first document, not found in second"
  | Compared id name a b c d =>
      line ("Package " ++ id ++ " (" ++ name ++ ")") ++ line ("  Files in first only: " ++ show_N (N.of_nat a)) ++
      line ("  Files in second only: " ++ show_N (N.of_nat b)) ++
      line ("  Files in both with different licenses: " ++ show_N (N.of_nat c)) ++
      line ("  Files in both with same licenses: " ++ show_N (N.of_nat d))
  end.
(** of the second document only what the first says nothing about *)
Definition second_text (v : verdict) : string :=
  match v with
  | Unknown id => line "================================" ++ line ("Package " ++ id ++ " has described relationship in second document but ID not found")
  | Alone id name => line "================================" ++ line ("Package " ++ id ++ " (" ++ name ++ ")") ++ line "  Found in second document, not found in first"
  | Compared _ _ _ _ _ _ => ""
  end.

(** ** Reports *)
Definition heading (p : Package) : string := line "============================" ++ line ("Package " ++ p_SPDXIdentifier p ++ " (" ++ p_PackageName p ++ ")").
(** the report of a package with files *)
Definition chapter (p : Package) (t : string) : Prop :=
  exists counts, license_counts p counts /\ t = heading p ++ report (licensed p) (unlicensed p) counts.
Definition reportable (p : Package) : Prop := p_FilesAnalyzed p = true /\ p_Files p <> [].
Definition complaint (p : Package) : string :=
  line ("Package " ++ p_SPDXIdentifier p ++ " (" ++ p_PackageName p ++ ")" ++
    if p_FilesAnalyzed p then " has no Files" else " had FilesAnalyzed: false").
(** the packages with the identifiers [ids], in the order of the list *)
Inductive chosen (ids : list string) : list Package -> list Package -> Prop :=
| chosen_nil : chosen ids [] []
| chosen_take p l l' : In (p_SPDXIdentifier p) ids -> chosen ids l l' -> chosen ids (p :: l) (p :: l')
| chosen_skip p l l' : ~ In (p_SPDXIdentifier p) ids -> chosen ids l l' -> chosen ids (p :: l) l'.
