(** Files whose content does not depend on the order of hash tables. *)
From Verif Require Import Base Codec Package PropSet Store SpecStore Props Nodes Doc Notebook.

(** If the bytes are a package at all: it holds at most one storage manifest, its storage
    index is determined, and no serial number stands for two revisions. *)
Definition determined (data : list N) : Prop :=
  forall pg rest, packaging_parse data = Ok (pg, rest) ->
    (length (pk_manifests (pg_package pg)) <= 1)%nat /\
    index_determined pg /\
    (forall k si, In (k, si) (pk_indexes (pg_package pg)) -> serials_unique si).

(** Every file is. *)
Definition all_determined (fs : filesystem) : Prop :=
  forall p data, fs_read fs p = Some data -> determined data.
