(** C61: every described store can be written to a file, and every file that holds
    it opens to it. *)
From Verif Require Import Base Codec SpecCodec Package SpecPackage PropSet SpecPropSet Store SpecStore SpecAccept SpecSame SpecFile Notebook
  FileProofs AuthorProofs ExampleFile.

(** Whatever the encoding and layout of the file. *)
Theorem C61_read : forall d els D h fuel,
  holds d els -> holds_store (content els) D -> store_fits D -> (1 <= fuel)%nat ->
  exists st, open_store h fuel d = Ok st /\ store_is D st.
Proof. exact store_described. Qed.
Print Assumptions C61_read.

Theorem C61_written : forall D, store_fits D -> store_in_range D ->
  exists d els, bytes_ok d /\ holds d els /\ holds_store (content els) D.
Proof. exact store_author. Qed.
Print Assumptions C61_written.

(** Together: for every description there is a file that opens to it. *)
Theorem C61_round_trip : forall D, store_fits D -> store_in_range D ->
  exists d, bytes_ok d /\ forall h fuel, (1 <= fuel)%nat -> exists st, open_store h fuel d = Ok st /\ store_is D st.
Proof.
  exact (fun D F R => match store_author D F R with ex_intro _ d (ex_intro _ els (conj B (conj H Hs))) =>
           ex_intro _ d (conj B (fun h fuel L => store_described d els D h fuel H Hs F L)) end).
Qed.
Print Assumptions C61_round_trip.

(** A store with two spaces, references within and between them, an array of
    property sets, and file data. *)
Definition example_desc : store_desc := StoreDesc 7 8 9 (Some 3) 4 (xid 3, xid 4)
  (SpaceDesc [(DefaultContent, xid 1); (MetadataRole, xid 2)]
     [ ObjectDesc (xid 1) 0x60007 (OSet [CompactId 1 0; CompactId 1 1] (Some ([CompactId 2 0], None)) [(5, SObjectIds 2); (6, SSpaceId)])
         [xid 2; xid 1] [(xid 5, xid 6)] None;
       ObjectDesc (xid 2) 0x20031 (OSet [] None [(7, SValues 3 [[(1, SU8 4)]; []])]) [] [] (Some [1; 2; 3]) ])
  [((xid 5, xid 6), SpaceDesc [] [ObjectDesc (xid 1) 0x60008 (OSet [] None []) [] [] None])].
Ltac nodup := cbn; repeat (apply NoDup_cons; [cbn; intuition (try discriminate)|]); apply NoDup_nil.
Example C61_example : store_fits example_desc /\ store_in_range example_desc.
Proof.
  assert (E : forall d, w_oset_ok (od_set d) = true -> set_bytes (os_props (od_set d)) -> (N.of_nat (length (w_oset (od_set d))) <? 2 ^ 64) = true ->
                exists e, l_oset (od_set d) e /\ bytes_ok e /\ N.of_nat (length e) < 2 ^ 64).
  { intros d A C B. exists (w_oset (od_set d)). split; [now apply in_oset|]. split; [now apply w_oset_bytes|now apply N.ltb_lt]. }
  assert (D : forall a b : N, a <> b -> xid a <> xid b) by (intros a b H Q; injection Q; congruence).
  split.
  - refine (conj (conj _ (conj _ _)) (conj _ _)).
    + nodup.
    + nodup.
    + repeat constructor.
    + nodup.
    + constructor; [|constructor]. refine (conj _ (conj _ _)); [nodup|nodup|repeat constructor].
  - refine (conj eq_refl (conj eq_refl (conj eq_refl (conj eq_refl (conj eq_refl (conj _ (conj _ (conj _ eq_refl)))))))).
    + repeat split.
    + refine (conj _ (conj _ eq_refl)); repeat constructor; try reflexivity; apply E; repeat constructor.
    + constructor; [|constructor]. split; [repeat split|]. refine (conj _ (conj _ eq_refl)); repeat constructor; try reflexivity; apply E; repeat constructor.
Qed.
