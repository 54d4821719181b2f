(** * Model: the options of json.Write, json/writer.go 12-33.
    An option is one of the two the package offers; options of a caller's own
    making (any function on an Encoder) are not modelled. *)
From Verif Require Import GoStr Types TvUtil Json JsonSpdx JsonText.

(** json/writer.go 12-24 *)
Inductive write_option : Type :=
| Indent (indent : string)
| EscapeHTML (escape : bool).

(** json.Encoder, as far as the options set it *)
Record encoder : Type := MkEncoder { e_escape : bool; e_indent : string }.

(** json.NewEncoder, json/writer.go 28 (encoding/json stream.go: NewEncoder) *)
Definition new_encoder : encoder := MkEncoder true "".

(** json/writer.go 14-24: SetIndent with an empty prefix, SetEscapeHTML *)
Definition apply_option (e : encoder) (o : write_option) : encoder :=
  match o with
  | Indent i => MkEncoder (e_escape e) i
  | EscapeHTML b => MkEncoder b (e_indent e)
  end.

(** Write, json/writer.go 27-33 *)
Definition json_write_with (v : version) (opts : list write_option) (d : JDocument) : res string :=
  let e := fold_left apply_option opts new_encoder in json_write v (e_escape e) (e_indent e) d.
