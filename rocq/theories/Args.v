(** * The arguments of ReadInto, Write and convert.Document

    These take interface{}: any value may be passed.  The model of a value is as
    much of it as reflection is asked about here. *)
From Verif Require Import GoStr Types TvUtil Json.
Local Open Scope string_scope.

(** reflect.Type: the documents, any other type that is neither a pointer nor an
    interface, pointers, and interface types that every value implements
    (interface{} and common.AnyDocument, /repo/spdx/common/types.go 6) *)
Inductive atype :=
| DocT (v : version)
| OtherT (path name : string)
| PtrT (t : atype)
| AnyT.
(** a value; [AnyV] is a variable of interface type, which only a pointer leads to *)
Inductive aval :=
| DocV (v : version) (d : Document)
| OtherV (path name content : string)
| PtrV (t : atype) (x : option aval)
| AnyV (x : option aval).
(** reflect.TypeOf *)
Definition type_of (x : aval) : atype :=
  match x with
  | DocV v _ => DocT v
  | OtherV p n _ => OtherT p n
  | PtrV t _ => PtrT t
  | AnyV _ => AnyT
  end.
(** == on reflect.Type *)
Definition version_eqb (a b : version) : bool :=
  match a, b with V21, V21 | V22, V22 | V23, V23 => true | _, _ => false end.
Fixpoint atype_eqb (a b : atype) : bool :=
  match a, b with
  | DocT v, DocT w => version_eqb v w
  | OtherT p n, OtherT q m => String.eqb p q && String.eqb n m
  | PtrT t, PtrT u => atype_eqb t u
  | AnyT, AnyT => true
  | _, _ => false
  end.
(** == on reflect.TypeOf of two interface values; nil has no type *)
Definition same_type (a b : option aval) : bool :=
  match a, b with
  | None, None => true
  | Some x, Some y => atype_eqb (type_of x) (type_of y)
  | _, _ => false
  end.

(** /repo/convert/struct.go 13-19 (FromPtr): Type panics on the zero Value, which
    is what ValueOf gives for nil and Elem for a nil pointer *)
Fixpoint from_ptr_value (x : aval) : res (option aval) :=
  match x with
  | PtrV _ None => Panic
  | PtrV _ (Some y) => from_ptr_value y
  | AnyV y => Ok y
  | _ => Ok (Some x)
  end.
Definition from_ptr (a : option aval) : res (option aval) :=
  match a with None => Panic | Some x => from_ptr_value x end.
(** /repo/convert/struct.go 21-27 (IsPtr): Kind of the nil Type panics; the
    dynamic type of a value is never an interface type *)
Definition is_ptr (a : option aval) : res bool :=
  match a with
  | None => Panic
  | Some (PtrV _ _) => Ok true
  | Some _ => Ok false
  end.

(** reflect.Value.Set on a variable of type [t]: the variable afterwards *)
Definition assign (t : atype) (x : option aval) : res aval :=
  match x with
  | None => Panic
  | Some x => match t with AnyT => Ok (AnyV (Some x)) | _ => if atype_eqb (type_of x) t then Ok x else Panic end
  end.

Section Convert.
  (** FuncChain.Convert of github.com/anchore/go-struct-converter, which is not part
      of /repo: the value behind the target pointer afterwards (Convert.v is a model
      of it on documents) *)
  Variable chain : option aval -> aval -> res aval.
  (** /repo/convert/chain.go 30-40 (Document): the target afterwards *)
  Definition document (from to : option aval) : res aval :=
    let* p := is_ptr to in
    if negb p then Err "struct to convert to must be a pointer" else
    let* f := from_ptr from in
    let* t := from_ptr to in
    match to with
    | Some (PtrV u c) =>
        if same_type f t then let* y := assign u f in Ok (PtrV u (Some y))
        else let* y := chain f (PtrV u c) in Ok (PtrV u (Some y))
    | _ => Panic
    end.
  (** ReadInto: /repo/json/reader.go 29-83, /repo/yaml/reader.go 30-84,
      /repo/tagvalue/reader.go 32-71, /repo/rdf/reader.go 31-60.  [content] is the
      reader, [load] what the lines between the two calls make of it: the document
      in its own version and what is left of the reader. *)
  Definition read_into_any {R} (load : R -> res aval * R) (content : R) (doc : option aval) : res aval * R :=
    match is_ptr doc with
    | Ok true => let (r, rest) := load content in ((let* d := r in document (Some d) doc), rest)
    | Ok false => (Err "doc to read into must be a pointer", content)
    | Err e => (Err e, content)
    | Panic => (Panic, content)
    end.
End Convert.

(** []rune(text), each rune as the bytes that string(r) makes of it: a byte that is
    not part of a valid sequence becomes U+FFFD *)
Fixpoint runes (s : string) : list string :=
  match s with
  | "" => []
  | String a s1 =>
      let bad := if (code a <? 128)%N then String a "" else rune_error in
      match s1 with
      | "" => [bad]
      | String b s2 =>
          if utf8_2 a b then String a (String b "") :: runes s2 else
          match s2 with
          | "" => bad :: runes s1
          | String c s3 =>
              if utf8_3 a b c then String a (String b (String c "")) :: runes s3 else
              match s3 with
              | "" => bad :: runes s1
              | String d s4 =>
                  if utf8_4 a b c d then String a (String b (String c (String d ""))) :: runes s4 else bad :: runes s1
              end
          end
      end
  end.
Section Describe.
  (** The capacity of []rune(text) for a text of [n] runes: the runtime rounds the
      size up to one of its size classes. *)
  Variable capacity : nat -> nat.
  (** /repo/convert/struct.go 43-50 (limit): r[:length] may go beyond the length of r,
      up to its capacity, where the runes are 0; beyond that it panics. *)
  Definition limit (text : string) (length : nat) : res string :=
    if Nat.eqb length 0 || Nat.leb (String.length text) (length + 3) then Ok text else
    let r := runes text in
    if Nat.leb length (capacity (List.length r))
    then Ok (String.concat "" (firstn length (r ++ repeat (String "000" "") (capacity (List.length r) - List.length r))) ++ "...")
    else Panic.

  (** fmt.Sprintf("%+v", x), of nil too *)
  Variable printed : option aval -> string.
  (** reflect.Type.PkgPath and Name; pointers and interface{} have none *)
  Definition type_path (t : atype) : string :=
    match t with
    | DocT V21 => "github.com/spdx/tools-golang/spdx/v2/v2_1"
    | DocT V22 => "github.com/spdx/tools-golang/spdx/v2/v2_2"
    | DocT V23 => "github.com/spdx/tools-golang/spdx/v2/v2_3"
    | OtherT p _ => p
    | _ => ""
    end.
  Definition type_name (t : atype) : string :=
    match t with DocT _ => "Document" | OtherT _ n => n | _ => "" end.
  (** /repo/convert/struct.go 29-41 (Describe); Interface on a variable of interface
      type gives what it holds *)
  Fixpoint describe_value (prefix : string) (x : aval) : res string :=
    match x with
    | PtrV _ None => Panic
    | PtrV _ (Some y) => describe_value (prefix ++ "*") y
    | _ =>
        let* str := limit (printed (match x with AnyV y => y | _ => Some x end)) 300 in
        Ok (type_path (type_of x) ++ "." ++ prefix ++ type_name (type_of x) ++ ": " ++ str)
    end.
  Definition describe (a : option aval) : res string :=
    match a with None => Panic | Some x => describe_value "" x end.

  (** /repo/tagvalue/writer.go 23-34 (Write); [render] are the three RenderDocument *)
  Variable render : version -> Document -> res string.
  Definition write_any (a : option aval) : res string :=
    let* x := from_ptr a in
    match x with
    | Some (DocV v d) => render v d
    | _ => let* s := describe x in Err ("unsupported document type: " ++ s)
    end.
End Describe.
