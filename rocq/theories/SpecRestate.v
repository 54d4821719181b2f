(** * The same statement in other JSON: member order, spelling of strings, letter
    case of member names, members with null. *)
From Coq Require Import Permutation.
From Verif Require Import GoStr Types TvUtil Json SpecJson.
Local Open Scope string_scope.

(** The members whose values the library parses itself, from the bytes of the text. *)
Definition parsed_names : list string :=
  ["SPDXID"; "externalDocumentId"; "snippetFromFile"; "reference"; "spdxElementId"; "relatedSpdxElement";
   "creators"; "annotator"; "supplier"; "originator"; "documentDescribes"; "hasFiles"].
Definition parsed (m : string * json) : Prop := exists k, In k parsed_names /\ called k m.

(** Two spellings of a member name: of the same text, or of texts that differ in
    letter case and are not the name spdxVersion. *)
Definition same_key (n n' : string) : Prop :=
  exists a a', unescape n = Some a /\ unescape n' = Some a' /\
    (a = a' \/ fold_name a = fold_name a' /\ a <> "spdxVersion" /\ a' <> "spdxVersion").

(** [restated j j']: [j'] has the members of [j] in any order, and possibly more
    members that are null; strings are spelled in any way.  A value that the
    library parses itself is the same. *)
Inductive restated : json -> json -> Prop :=
| restated_null : restated JNull JNull
| restated_bool b : restated (JBool b) (JBool b)
| restated_num t : restated (JNum t) (JNum t)
| restated_str r r' : unescape r = unescape r' -> restated (JStr r) (JStr r')
| restated_arr l l' : Forall2 restated l l' -> restated (JArr l) (JArr l')
| restated_obj ms ms' nulls ms'' :
    Forall2 (fun m m' => same_key (fst m) (fst m') /\
               (snd m = snd m' \/ ~ parsed m /\ restated (snd m) (snd m'))) ms ms' ->
    Forall (fun m => snd m = JNull /\ (exists a, unescape (fst m) = Some a) /\ ~ parsed m) nulls ->
    Permutation (ms' ++ nulls) ms'' -> restated (JObj ms) (JObj ms'').

(** Two lists of objects put together: an object of the second list follows on the
    members of the object at the same place in the first. *)
Fixpoint put_together (l l' : list json) : list json :=
  match l, l' with
  | JObj ms :: r, JObj ms' :: r' => JObj (ms ++ ms') :: put_together r r'
  | _, _ => l'
  end.
Definition all_objects (l : list json) : Prop := Forall (fun j => exists ms, j = JObj ms) l.
(** The members of a document that list elements, but for the packages. *)
Definition element_lists : list string :=
  ["files"; "snippets"; "relationships"; "annotations"; "hasExtractedLicensingInfos"; "externalDocumentRefs"].
(** The parts that can be taken back with null. *)
Definition droppable : list string := "packages" :: "creationInfo" :: element_lists.
(** Members with names that differ, also when letter case is disregarded. *)
Definition names_apart (m m' : string * json) : Prop :=
  exists a a', unescape (fst m) = Some a /\ unescape (fst m') = Some a' /\ fold_name a <> fold_name a'.
(** The same members, those of one name in the same order. *)
Inductive moved : list (string * json) -> list (string * json) -> Prop :=
| moved_none l : moved l l
| moved_swap before m m' after : names_apart m m' -> moved (before ++ m :: m' :: after) (before ++ m' :: m :: after)
| moved_on l l' l'' : moved l l' -> moved l' l'' -> moved l l''.
(** A reference read into a variable that holds another one: the parts it has
    replace those of the other one. *)
Definition or_else (a b : string) : string := match a with "" => b | _ => a end.
Definition laid_over (r old : DocElementID) : DocElementID :=
  MkDEID (or_else (de_DocumentRefID r) (de_DocumentRefID old)) (or_else (de_ElementRefID r) (de_ElementRefID old))
         (or_else (de_SpecialID r) (de_SpecialID old)).
