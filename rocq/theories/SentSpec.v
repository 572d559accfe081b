(** * Vocabulary: what a broker sent and what the client was given *)
From Verif Require Import GoBase SchemaSpec Msg02 Msg03.
Local Open Scope Z_scope.

(** The client was given [meta] for a response [sent] at version [x]: the fields that
    the version carries, the others zero (C21). *)
Definition metadata_as (x : Z) (sent meta : MetadataResponse) : Prop :=
  MetadataResponse_to meta = receive MetadataResponse_schema x (zeros MetadataResponse_schema) (MetadataResponse_to sent).
Definition coordinator_as (x : Z) (sent resp : FindCoordinatorResponse) : Prop :=
  FindCoordinatorResponse_to resp = receive FindCoordinatorResponse_schema x (zeros FindCoordinatorResponse_schema) (FindCoordinatorResponse_to sent).
