(** * The public RDF reader: /repo/rdf/reader.go, ReadInto with its conversion. *)
From Verif Require Import GoStr Types TvUtil TvParser Rdf RdfReader Convert.
From Verif Require ConvertGo.

(** rdf/reader.go 21-60 (Read, ReadInto) after the RDF/XML parser: the document of
    the version named in the graph, converted to the one asked for ([Read] asks
    for 2.3).  A file that two packages share is one object in Go and two equal
    ones here. *)
Definition rdf_read_to (dz : bool) (to : version) (g : graph) (iter : list (string * nat) -> list (string * nat)) : res gval :=
  let* (from, d) := rdf_read g iter in
  convert_document dz from to (ConvertGo.go_document from d).
