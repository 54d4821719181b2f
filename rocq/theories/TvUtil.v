(** * Identifiers and sub-values of the tag-value format.
    /repo/spdx/v2/common/identifier.go, /repo/spdx/v2/v2_3/tagvalue/reader/util.go
    (v2_2 and v2_1 have the same functions). *)
From Verif Require Import GoStr Types.

(** SPDX versions 2.1, 2.2 and 2.3. *)
Inductive version := V21 | V22 | V23.

(** common/identifier.go 13-14 (spdxRefPrefix, documentRefPrefix) *)
Definition spdx_ref : string := "SPDXRef-".
Definition document_ref : string := "DocumentRef-".

(** common/identifier.go 202-204 (RenderElementID) *)
Definition render_element_id (id : string) : string := spdx_ref ++ id.

(** common/identifier.go 210-219 (RenderDocElementID) *)
Definition render_doc_element_id (d : DocElementID) : string :=
  if nonempty (de_SpecialID d) then de_SpecialID d
  else
    (if nonempty (de_DocumentRefID d) then document_ref ++ de_DocumentRefID d ++ ":" else "")
    ++ spdx_ref ++ de_ElementRefID d.

(** reader/util.go 14-25 (extractSubs) *)
Definition extract_subs (value : string) : res (string * string) :=
  match cut ":" value with
  | None => Err "invalid subvalue format (no colon found)"
  | Some (k, v) => Ok (trim_space k, trim_space v)
  end.

(** reader/util.go 96-115 (extractElementID) *)
Definition extract_element_id (value : string) : res string :=
  if negb (has_prefix spdx_ref value) then Err "missing SPDXRef- prefix for element identifier"
  else if contains ":" value then Err "invalid colon in element identifier"
  else
    let e := trim_prefix spdx_ref value in
    if String.eqb e "" then Err "element identifier has nothing after prefix" else Ok e.

(** reader/util.go 52-73: the part of extractDocElementID after the document
    prefix has been split off *)
Definition extract_elt (docref idstr : string) : res DocElementID :=
  if negb (has_prefix spdx_ref idstr) then Err "missing SPDXRef- prefix for element identifier"
  else if contains ":" idstr then Err "invalid colon in element identifier"
  else
    let e := trim_prefix spdx_ref idstr in
    if String.eqb e "" then Err "element identifier has nothing after prefix"
    else Ok (MkDEID docref e "").

(** reader/util.go 29-74 (extractDocElementID) *)
Definition extract_doc_element_id (value : string) : res DocElementID :=
  if has_prefix document_ref value then
    match split_on ":" value with
    | [d; e] =>
        let docref := trim_prefix document_ref d in
        if String.eqb docref "" then Err "document identifier has nothing after prefix"
        else extract_elt docref e
    | [] | [_] => Err "no colon found although DocumentRef- prefix present"
    | _ => Err "more than one colon found"
    end
  else extract_elt "" value.

(** reader/util.go 82-91 (extractDocElementSpecial) *)
Definition extract_doc_element_special (value : string) (permitted : list string) : res DocElementID :=
  if existsb (String.eqb value) permitted then Ok (MkDEID "" "" value)
  else extract_doc_element_id value.

(** Split at blanks and drop empty items: the loop shared by
    parse_relationship.go 18-27, parse_creation_info.go 113-121 and
    parse_package.go 234-242. *)
Definition fields_sp (value : string) : list string :=
  filter nonempty (map trim_space (split_on " " value)).

(** parse_creation_info.go 112-162 (extractExternalDocumentReference);
    result: DocumentRefID, URI, algorithm, checksum *)
Definition extract_external_document_reference (value : string) : res ExternalDocumentRef :=
  let* (d, uri, alg, ck) :=
    match fields_sp value with
    | [d; u; a; c] =>
        if has_suffix ":" a then Ok (d, u, trim_suffix ":" a, c)
        else Err "algorithm does not end with colon"
    | [d; u; ac] =>
        match cut ":" ac with
        | Some (a, c) => Ok (d, u, a, c)
        | None => Err "missing colon separator between algorithm and checksum"
        end
    | _ => Err "expected 4 elements"
    end in
  if negb (has_prefix document_ref d) then Err "expected first element to have DocumentRef- prefix"
  else
    let d' := trim_prefix document_ref d in
    if String.eqb d' "" then Err "document identifier has nothing after prefix"
    else Ok (MkEDR d' uri (MkChecksum alg ck)).

(** parse_package.go 216-231 (extractCodeAndExcludes) *)
Definition extract_code_and_excludes (value : string) : VerificationCode :=
  match cut "(excludes:" value with
  | None => MkVC value []
  | Some (c, rest) =>
      let name := match cut ")" rest with Some (x, _) => x | None => rest end in
      MkVC (trim_space c) [trim_space name]
  end.

(** parse_package.go 233-248 (extractPackageExternalReference) *)
Definition extract_package_external_reference (value : string) : res (string * string * string) :=
  match fields_sp value with
  | [c; t; l] => Ok (c, t, l)
  | _ => Err "expected 3 elements"
  end.

(** Checksum algorithms accepted per version: parse_package.go 114-131 and
    parse_file.go 74-91 of v2_3 (17), v2_2 (9) and v2_1 (3). *)
Definition algs22 : list string :=
  ["SHA1"; "SHA224"; "SHA256"; "SHA384"; "SHA512"; "MD2"; "MD4"; "MD5"; "MD6"].
Definition algs (v : version) : list string :=
  match v with
  | V21 => ["SHA1"; "SHA256"; "MD5"]
  | V22 => algs22
  | V23 => algs22 ++ ["SHA3-256"; "SHA3-384"; "SHA3-512"; "BLAKE2b-256"; "BLAKE2b-384";
                      "BLAKE2b-512"; "BLAKE3"; "ADLER32"]
  end.
Definition mem (x : string) (l : list string) : bool := existsb (String.eqb x) l.

(** parse_package.go 107-134 and parse_file.go 67-95: one checksum *)
Definition extract_checksum (v : version) (value : string) : res Checksum :=
  let* (k, x) := extract_subs value in
  if mem k (algs v) then Ok (MkChecksum k x) else Err "got unknown checksum type".

(** parse_relationship.go 15-49: "A REL B" *)
Definition extract_relationship (v : version) (value : string)
  : res (DocElementID * string * DocElementID) :=
  match fields_sp value with
  | [a; r; b] =>
      let* ida := extract_doc_element_id (trim_space a) in
      let* idb := match v with
                  | V21 => extract_doc_element_id (trim_space b)
                  | _ => extract_doc_element_special (trim_space b) ["NONE"; "NOASSERTION"]
                  end in
      Ok (ida, trim_space r, idb)
  | _ => Err "invalid relationship format"
  end.

(** parse_snippet.go 58-79 and 81-102: "start:end" *)
Definition extract_range (value : string) : res (Z * Z) :=
  let* (a, b) := extract_subs value in
  let* x := atoi a in
  let* y := atoi b in
  Ok (x, y).

(** Person / Organization / Tool, with a label for the error *)
Definition extract_actor (kinds : list string) (value : string) : res (string * string) :=
  let* (k, x) := extract_subs value in
  if mem k kinds then Ok (k, x) else Err "unrecognized type".
