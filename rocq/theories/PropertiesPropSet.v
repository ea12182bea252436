(** Property theorems for object property sets (C08-C10, C19, C43). *)
From Verif Require Import Base BaseProofs Codec SpecCodec CodecProofs Package SpecPackage
  PackageFacts PropSet PropSetProofs SpecPropSet PropSetRT.

(** C08, C09, C10 for the property-set parsers. *)
Theorem C08_propset_self_delimiting :
  self_delimiting propset_parse /\ self_delimiting oprops_parse.
Proof. exact (conj (good_self_delimiting _ _ good_propset) (good_self_delimiting _ _ good_oprops)). Qed.
Print Assumptions C08_propset_self_delimiting.

Theorem C09_propset_truncation_reported :
  truncation_reported propset_parse /\ truncation_reported oprops_parse.
Proof. exact (conj (good_truncation _ _ good_propset) (good_truncation _ _ good_oprops)). Qed.
Print Assumptions C09_propset_truncation_reported.

Theorem C10_propset_total : total_parser propset_parse /\ total_parser oprops_parse.
Proof. exact (conj (good_total _ _ good_propset) (good_total _ _ good_oprops)). Qed.
Print Assumptions C10_propset_total.

(** C19: a serialised object is read back, whatever follows it. *)
Theorem C19_object_roundtrip : forall o e t,
  l_oset o e -> exists p, oprops_parse (e ++ t) = Ok (p, t) /\ oset_means o p.
Proof. exact reads_oset. Qed.
Print Assumptions C19_object_roundtrip.

(** C19: and nothing else is accepted: an accepted string is the serialisation of
    an object, and the result is what that object means. *)
Theorem C19_accepts_only_encodings : forall bs p rest,
  bytes_ok bs -> oprops_parse bs = Ok (p, rest) ->
  exists o e, bs = e ++ rest /\ l_oset o e /\ oset_means o p.
Proof. exact explains_oprops. Qed.
Print Assumptions C19_accepts_only_encodings.

(** Seven properties, one id twice, a nested set and an array of two sets. *)
Definition ex_oset : oset :=
  OSet [CompactId 3 1; CompactId 255 0xFFFFFF] (Some ([CompactId 7 0], Some [CompactId 9 2]))
    [(0x1C1B, SU32 0xDEADBEEF); (0x1D09, SBool true); (5, SVec [1; 2; 3]);
     (0x1C1B, SU16 17); (6, SSet [(1, SObjectIds 2); (2, SSet [(8, SU8 200)])]);
     (0x3FFFFFF, SValues 0x44001C00 [[(1, SEmpty); (2, SObjectId)]; []]); (9, SU64 0xFFFFFFFFFFFFFFFF)].

Ltac enc_ps := repeat first
  [ reflexivity
  | match goal with
    | |- exists _ : bool, _ => eexists
    | |- (_ +++ _) _ => eapply cat_intro
    | |- many _ (_ :: _) _ => eapply cat_intro
    | |- l_uint _ _ _ => split
    | |- l_propid _ _ => exists false; split; [exact I|split; [reflexivity|]]
    | |- l_propid _ _ => exists true; split; [reflexivity|split; [reflexivity|]]
    | |- l_compactid _ _ => split; [reflexivity|split; [reflexivity|]]
    | |- l_stream _ _ _ _ => split; [reflexivity|]; exists 0; split; [reflexivity|]
    | |- l_ids _ _ _ _ => eapply cat_intro
    | |- l_set _ _ => eapply cat_intro
    | |- l_props _ _ _ => eapply cat_intro
    | |- l_val _ _ => cbn [l_val snd]
    | |- (fun _ => _) _ => cbn [l_val snd]
    end ].

Example C19_example : exists e,
  l_oset ex_oset e /\
  exists p, oprops_parse (e ++ [77]) = Ok (p, [77]) /\
    op_object_ids p = [CompactId 3 1; CompactId 255 0xFFFFFF] /\
    propset_get 0x1C1B (op_props p) = Some (VU16 17) /\
    propset_index 0x1C1B (op_props p) = Some 3.
Proof.
  eexists. split.
  - exists false, false, false, false. unfold ex_oset. cbn [os_spaces os_objects os_props].
    unfold l_ids, l_set, l_props. enc_ps.
  - eexists. vm_compute. split; [reflexivity|split; [reflexivity|split; reflexivity]].
Qed.

(** C43: nesting of property sets is limited by the length of the input only:
    [n] levels need exactly [6 n + 2] bytes, and that many suffice. *)
Theorem C43_nesting_needs_bytes : forall bs m rest n,
  propset_parse bs = Ok (m, rest) -> nested n m -> (6 * n + 2 <= length bs)%nat.
Proof. exact nested_bounded. Qed.
Print Assumptions C43_nesting_needs_bytes.

Theorem C43_nesting_limit_refuted : forall limit, exists bs m,
  length bs = (6 * limit + 2)%nat /\ propset_parse bs = Ok (m, []) /\ nested limit m.
Proof. exact nesting_unbounded. Qed.
Print Assumptions C43_nesting_limit_refuted.
