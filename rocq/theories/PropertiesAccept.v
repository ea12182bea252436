(** Property theorems C55: exactly which files are accepted. *)
From Coq Require Import Lia ZifyBool ZifyNat ZifyN.
From Verif Require Import Base Codec SpecCodec Package SpecPackage PackageRT PackageFacts SpecAccept AcceptProofs
  PropertiesPackage.

(** C55: an accepted package is a string of the accepted language, and holds
    what its elements say. *)
Theorem C55_package_accepted : forall bs pk rest,
  bytes_ok bs -> package_parse bs = Ok (pk, rest) ->
  exists els e, bs = e ++ rest /\ a_package els e /\ a_means els pk.
Proof. exact package_accepted. Qed.
Print Assumptions C55_package_accepted.

(** C55: every string of the accepted language is accepted. *)
Theorem C55_package_accepts : forall els e t,
  a_package els e ->
  exists pk, package_parse (e ++ t) = Ok (pk, t) /\ a_means els pk.
Proof. exact package_accepts. Qed.
Print Assumptions C55_package_accepts.

(** C55: the same for whole files, in either layout. *)
Theorem C55_file_accepted : forall bs pg rest,
  bytes_ok bs -> packaging_parse bs = Ok (pg, rest) ->
  exists els e, bs = e ++ rest /\ a_means els (pg_package pg) /\
    a_file (pg_file_type pg) (pg_file pg) (pg_legacy_version pg) (pg_file_format pg)
      (pg_storage_index pg) (pg_cell_schema pg) els e.
Proof. exact file_accepted. Qed.
Print Assumptions C55_file_accepted.

Theorem C55_file_accepts : forall ft f lv ff index schema els e t,
  a_file ft f lv ff index schema els e ->
  exists pk, packaging_parse (e ++ t) = Ok (Packaging ft f lv ff index schema pk, t) /\
    a_means els pk.
Proof. exact file_accepts. Qed.
Print Assumptions C55_file_accepts.

(** C55: the format proper is within the accepted language. *)
Theorem C55_format_within : forall els e, l_package els e -> a_package (map AElem els) e.
Proof. exact package_lenient. Qed.
Print Assumptions C55_format_within.

(** C55: refutation of "only packages of the format are accepted". *)
Theorem C55_only_format_refuted : exists bs pk,
  bytes_ok bs /\ package_parse bs = Ok (pk, []) /\ forall els, ~ l_package els bs.
Proof. exact format_only_refuted. Qed.
Print Assumptions C55_only_format_refuted.

(** The example package of PropertiesPackage.v with a fragment added is in the
    accepted language, and is accepted. *)
Definition ex_acc : list aelem :=
  AFragment (ex_id 20) ex_serial (Fragment (ex_id 21) 3 0 9 [1; 2; 3]) :: map AElem ex_els.

Example C55_example : exists e pk,
  a_package ex_acc e /\ package_parse (e ++ [1; 2]) = Ok (pk, [1; 2]) /\
  alookup exguid_eqb (ex_id 20) (pk_fragments pk) = Some (Fragment (ex_id 21) 3 0 9 [1; 2; 3]) /\
  alookup exguid_eqb (ex_id 5) (pk_cells pk) = Some (ex_id 60).
Proof.
  assert (X : exists e, a_package ex_acc e).
  { assert (P : exists e, l_package ex_els e).
    { eexists. unfold ex_els, ex_id, ex_serial. encode. }
    destruct P as (e & a & b & _ & Ha & (c & d & _ & Hc & (m & f & _ & Hm & Hf))).
    assert (F : exists e, a_elem (AFragment (ex_id 20) ex_serial (Fragment (ex_id 21) 3 0 9 [1; 2; 3])) e).
    { destruct (many_mono AElem _ _ _ _ elem_lenient Hm) as (p & q & _ & (h & r & _ & Hh & (i & s & _ & Hi & (u & v & _ & Hu & _))) & _).
      eexists. unfold ex_id, ex_serial. cbn [a_elem].
      eapply cat_intro; [exact Hh|]. eapply cat_intro; [encode|]. eapply cat_intro; [exact Hu|].
      eapply cat_intro; [encode|]. split; [reflexivity|].
      eapply cat_intro; [right; encode|]. encode. }
    destruct F as (fe & Hfe).
    eexists. eapply cat_intro; [exact Ha|]. eapply cat_intro; [exact Hc|]. eapply cat_intro; [|exact Hf].
    unfold ex_acc. eapply cat_intro; [exact Hfe|]. exact (many_mono AElem _ _ _ _ elem_lenient Hm). }
  destruct X as (e & He). exists e.
  destruct (package_accepts _ _ [1; 2] He) as (pk & P & (_ & _ & C & _) & F). exists pk.
  split; [exact He|]. split; [exact P|]. split.
  - rewrite F. vm_compute. reflexivity.
  - change (pk_cells pk) with (pk_cells (without_fragments pk)). rewrite <- C. vm_compute. reflexivity.
Qed.
