(** * What is expected of the conversions between YAML and JSON *)
From Verif Require Import GoStr Types TvUtil Json SpecJson SpecJsonText.

(** The JSON value [j], converted to YAML and back for the Go type [target], is
    the same value with its members in some order.  This is what
    sigs.k8s.io/yaml promises; whether it keeps the promise for [j] is outside
    the model. *)
Definition carried (to_json : option version -> string -> res string) (to_yaml : string -> res string)
  (target : option version) (j : json) : Prop :=
  exists y t j', to_yaml (text j) = Ok y /\ to_json target y = Ok t /\ json_text j' t /\ shuffled j j'.
(** The JSON text of [y] does not depend on the Go type it is meant for. *)
Definition untyped (to_json : option version -> string -> res string) (y t : string) : Prop :=
  forall target, to_json target y = Ok t.
