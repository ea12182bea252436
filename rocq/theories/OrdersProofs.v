(** Proofs for C89. *)
From Coq Require Import Lia ZifyBool ZifyNat ZifyN.
From Verif Require Import Base BaseProofs Codec SpecCodec Package SpecPackage PropSet SpecPropSet Store SpecStore
  StoreProofs StoreProofs2 StoreProofs3 PackageProofs PackageFacts PackageRT Props Nodes Doc Notebook Orders SpecOrders SameProofs.
Local Open Scope nat_scope.

Lemma same_store_sym a b : same_store a b -> same_store b a.
Proof. intros (A & B & C & D). repeat split; auto. Qed.

Lemma open_orders h1 h2 fuel d : determined d ->
  (exists a b, open_store h1 fuel d = Ok a /\ open_store h2 fuel d = Ok b /\ same_store a b) \/
  ((forall a, open_store h1 fuel d <> Ok a) /\ (forall b, open_store h2 fuel d <> Ok b) /\
   open_store h1 fuel d <> Panic /\ open_store h2 fuel d <> Panic).
Proof.
  intros D. unfold open_store, run. destruct (packaging_parse d) as [[pg rest]| | |] eqn:E; cbn [rbind].
  - destruct (D _ _ E) as (M & I & U). pose proof (packaging_parse_ok d pg rest E) as K.
    destruct (parse_store h1 fuel pg) as [a| | |] eqn:E1.
    + destruct (parse_store_order h1 h2 fuel pg a K M I U E1) as (b & E2 & S). left. eauto.
    + right. repeat split; try discriminate; [|apply parse_store_no_panic].
      intros b E2. destruct (parse_store_order h2 h1 fuel pg b K M I U E2) as (a & E3 & _). congruence.
    + right. now apply parse_store_no_panic in E1.
    + right. repeat split; try discriminate; [|apply parse_store_no_panic].
      intros b E2. destruct (parse_store_order h2 h1 fuel pg b K M I U E2) as (a & E3 & _). congruence.
  - right. repeat split; discriminate.
  - exfalso. destruct (PackageFacts.good_total _ _ good_packaging d) as [(x & r & T)|(e & T)]; congruence.
  - right. repeat split; discriminate.
Qed.

Lemma section_same fuel a b n : same_store a b -> Doc.parse_section fuel a n = Doc.parse_section fuel b n.
Proof.
  intros (_ & _ & R & S). unfold Doc.parse_section. rewrite R. apply rbind_ext. intros md.
  apply rbind_ext. intros c. rewrite (map_res_ext (parse_page_series fuel a) (parse_page_series fuel b)); [reflexivity|].
  intros id. unfold parse_page_series. rewrite R. apply rbind_ext. intros o. apply rbind_ext. intros sd.
  apply map_res_ext. intros cell. unfold object_space. now rewrite S.
Qed.

(** Results that agree on everything but the kind of a failure. *)
Definition agrees {A} (r r' : res A) : Prop := (forall a, r = Ok a <-> r' = Ok a) /\ (r = Panic <-> r' = Panic).
Definition agreen {A} (r : res A) (r' : res (A * nat)) : Prop :=
  (forall a, r = Ok a <-> exists n, r' = Ok (a, n)) /\ (r = Panic <-> r' = Panic).

Lemma agrees_refl {A} (r : res A) : agrees r r.
Proof. split; [intros a|]; reflexivity. Qed.

Lemma buffer_agrees h1 h2 fuel d n : determined d ->
  agrees (parse_section_buffer h1 fuel d n) (parse_section_buffer h2 fuel d n).
Proof.
  intros D. unfold parse_section_buffer. destruct (open_orders h1 h2 fuel d D) as [(a & b & -> & -> & S)|(N1 & N2 & P1 & P2)].
  - cbn [rbind]. rewrite (section_same fuel a b n S). destruct S as (-> & _). apply agrees_refl.
  - destruct (open_store h1 fuel d) as [x| | |]; [destruct (N1 x eq_refl)| |contradiction|];
    (destruct (open_store h2 fuel d) as [y| | |]; [destruct (N2 y eq_refl)| |contradiction|]); cbn [rbind];
    split; try split; discriminate.
Qed.

Lemma buffer_opened h1 h2 fuel d n st : determined d -> open_store h1 fuel d = Ok st ->
  parse_section_buffer h1 fuel d n = parse_section_buffer h2 fuel d n.
Proof.
  intros D O. unfold parse_section_buffer. destruct (open_orders h1 h2 fuel d D) as [(a & b & -> & -> & S)|(N1 & _)].
  - cbn [rbind]. rewrite (section_same fuel a b n S). destruct S as (-> & _). reflexivity.
  - destruct (N1 _ O).
Qed.

Lemma file_agrees h1 h2 fuel fs p : all_determined fs ->
  agrees (parse_section_file h1 fuel fs p) (parse_section_file h2 fuel fs p).
Proof.
  intros D. unfold parse_section_file. destruct (fs_read fs p) as [d|] eqn:R; [|apply agrees_refl]. cbn [ok_or rbind].
  destruct (open_orders h1 h2 fuel d (D _ _ R)) as [(a & b & -> & -> & S)|(N1 & N2 & P1 & P2)].
  - cbn [rbind]. pose proof S as (-> & _). destruct (st_schema b =? section_schema)%N; [|apply agrees_refl].
    destruct (file_name p) as [n|]; [|apply agrees_refl]. cbn [ok_or rbind]. rewrite (section_same fuel a b n S). apply agrees_refl.
  - destruct (open_store h1 fuel d) as [x| | |]; [destruct (N1 x eq_refl)| |contradiction|];
    (destruct (open_store h2 fuel d) as [y| | |]; [destruct (N2 y eq_refl)| |contradiction|]); cbn [rbind];
    split; try split; discriminate.
Qed.

Lemma agreen_bind {A B} (r : res A) (r' : res (A * nat)) (f : A -> res B) (f' : A * nat -> res (B * nat)) :
  agreen r r' -> (forall a n, agreen (f a) (f' (a, n))) -> agreen (rbind r f) (rbind r' f').
Proof.
  intros (O & P) F. destruct r as [a|e| |]; cbn [rbind].
  - destruct (proj1 (O a) eq_refl) as (n & ->). cbn [rbind]. apply F.
  - destruct r' as [[a n]|e'| |]; cbn [rbind].
    + now pose proof (proj2 (O a) (ex_intro _ n eq_refl)).
    + split; [intros b; split; [discriminate|intros (m & E); discriminate]|split; discriminate].
    + now pose proof (proj2 P eq_refl).
    + split; [intros b; split; [discriminate|intros (m & E); discriminate]|split; discriminate].
  - rewrite (proj1 P eq_refl). cbn [rbind]. split; [intros b; split; [discriminate|intros (m & E); discriminate]|split; reflexivity].
  - destruct r' as [[a n]|e'| |]; cbn [rbind].
    + now pose proof (proj2 (O a) (ex_intro _ n eq_refl)).
    + split; [intros b; split; [discriminate|intros (m & E); discriminate]|split; discriminate].
    + now pose proof (proj2 P eq_refl).
    + split; [intros b; split; [discriminate|intros (m & E); discriminate]|split; discriminate].
Qed.

Lemma agreen_ok {A} (a : A) n : agreen (Ok a) (Ok (a, n)).
Proof.
  split; [|split; discriminate]. intros b. split; [intros E; injection E as ->; eauto|intros (m & E); injection E as -> ->; reflexivity].
Qed.

Lemma agreen_err {A} e e' : agreen (@Err A e) (Err e').
Proof. split; [intros b; split; [discriminate|intros (m & E); discriminate]|split; discriminate]. Qed.

Lemma agreen_fuel {A} : agreen (@OutOfFuel A) OutOfFuel.
Proof. split; [intros b; split; [discriminate|intros (m & E); discriminate]|split; discriminate]. Qed.

Lemma agreen_pre {A B} (r : res A) (f : A -> res B) (f' : A -> res (B * nat)) :
  (forall a, r = Ok a -> agreen (f a) (f' a)) -> agreen (rbind r f) (rbind r f').
Proof.
  intros F. destruct r as [a| | |]; cbn [rbind]; [now apply F|apply agreen_err| |apply agreen_fuel].
  split; [intros b; split; [discriminate|intros (m & E); discriminate]|split; reflexivity].
Qed.

Lemma map_agreen {A B} (f : A -> res B) (f' : nat -> A -> res (B * nat)) l :
  (forall n a, agreen (f a) (f' n a)) -> forall n, agreen (map_res f l) (map_each f' n l).
Proof.
  intros F. induction l as [|a l IH]; intros n; cbn [map_res map_each]; [apply agreen_ok|].
  apply agreen_bind; [apply F|]. intros b n1. apply agreen_bind; [apply IH|]. intros bs n2. apply agreen_ok.
Qed.

Lemma notebook_agreen sanitise h hs fuel fs : all_determined fs -> forall depth n p,
  agreen (parse_notebook sanitise h depth fuel fs p) (notebook_each sanitise hs depth fuel fs n p).
Proof.
  intros D. induction depth as [|d IH]; intros n p; cbn [parse_notebook notebook_each]; [apply agreen_fuel|].
  apply agreen_pre. intros data R.
  assert (R' : fs_read fs p = Some data). { destruct (fs_read fs p); [|discriminate R]. cbn in R. congruence. }
  destruct (open_orders h (hs n) fuel data (D _ _ R')) as [(a & b & -> & -> & S)|(N1 & N2 & P1 & P2)].
  - cbn [rbind]. pose proof S as (-> & _ & -> & _). destruct (st_schema b =? toc_schema)%N; [|apply agreen_err].
    apply agreen_pre. intros base _. apply agreen_pre. intros [names color] _. apply agreen_pre. intros paths _.
    apply agreen_bind; [|intros es m; apply agreen_ok].
    apply map_agreen. intros m q. destruct (fs_is_file fs q).
    + destruct (file_agrees h (hs m) fuel fs q D) as (O & P).
      destruct (parse_section_file h fuel fs q) as [s| | |]; cbn [rbind].
      * rewrite (proj1 (O s) eq_refl). apply agreen_ok.
      * destruct (parse_section_file (hs m) fuel fs q) as [s'| | |].
        -- now pose proof (proj2 (O s') eq_refl).
        -- apply agreen_err.
        -- now pose proof (proj2 P eq_refl).
        -- split; [intros b'; split; [discriminate|intros (m' & E); discriminate]|split; discriminate].
      * rewrite (proj1 P eq_refl). cbn [rbind]. split; [intros b'; split; [discriminate|intros (m' & E); discriminate]|split; reflexivity].
      * destruct (parse_section_file (hs m) fuel fs q) as [s'| | |].
        -- now pose proof (proj2 (O s') eq_refl).
        -- split; [intros b'; split; [discriminate|intros (m' & E); discriminate]|split; discriminate].
        -- now pose proof (proj2 P eq_refl).
        -- apply agreen_fuel.
    + apply agreen_pre. intros dn _. apply agreen_pre. intros fls _. apply agreen_pre. intros toc _.
      apply agreen_bind; [apply IH|]. intros g m'. apply agreen_ok.
  - destruct (open_store h fuel data) as [x| | |]; [destruct (N1 x eq_refl)| |contradiction|];
    (destruct (open_store (hs n) fuel data) as [y| | |]; [destruct (N2 y eq_refl)| |contradiction|]); cbn [rbind];
    (split; [intros b'; split; [discriminate|intros (m' & E); discriminate]|split; discriminate]).
Qed.

Lemma notebook_agrees sanitise h1 h2 depth fuel fs p : all_determined fs ->
  agrees (parse_notebook sanitise h1 depth fuel fs p) (parse_notebook sanitise h2 depth fuel fs p).
Proof.
  intros D. pose proof (notebook_agreen sanitise h1 (fun _ => h1) fuel fs D depth 0 p) as (O1 & P1).
  pose proof (notebook_agreen sanitise h2 (fun _ => h1) fuel fs D depth 0 p) as (O2 & P2).
  split; [intros a; rewrite O1, O2; reflexivity|rewrite P1, P2; reflexivity].
Qed.

(** A test for determined files. *)
Definition serial_same (a b : serial) : bool := ((sn_guid a =? sn_guid b) && (sn_serial a =? sn_serial b))%N.
Definition serials_test (si : storage_index) : bool :=
  forallb (fun a => forallb (fun b => negb (serial_same (rv_serial (snd a)) (rv_serial (snd b))) ||
    exguid_eqb (rv_mapping (snd a)) (rv_mapping (snd b))) (si_revs si)) (si_revs si) &&
  forallb (fun a => forallb (fun b => negb (exguid_eqb (cm_id (snd a)) (cm_id (snd b))) ||
    serial_same (cm_serial (snd a)) (cm_serial (snd b))) (si_cells si)) (si_cells si).
Definition determined_test (d : list N) : bool :=
  match packaging_parse d with
  | Ok (pg, _) => Nat.leb (length (pk_manifests (pg_package pg))) 1 && Nat.leb (length (pk_indexes (pg_package pg))) 1 &&
      forallb (fun e => serials_test (snd e)) (pk_indexes (pg_package pg))
  | _ => true
  end.
Lemma serial_same_eq a b : serial_same a b = true <-> a = b.
Proof.
  destruct a as [g s], b as [g' s']. unfold serial_same. cbn [sn_guid sn_serial]. rewrite Bool.andb_true_iff, !N.eqb_eq.
  split; [intros (-> & ->); reflexivity|intros E; injection E; auto].
Qed.
Lemma serials_test_ok si : serials_test si = true -> serials_unique si.
Proof.
  unfold serials_test. rewrite Bool.andb_true_iff, !forallb_forall. intros (R & C). split.
  - intros k1 m1 k2 m2 I1 I2 E. specialize (R _ I1). cbn beta in R. rewrite forallb_forall in R. specialize (R _ I2).
    cbn [snd] in R. rewrite (proj2 (serial_same_eq _ _) E) in R. cbn [negb orb] in R. now apply PackageRT.exguid_eqb_eq.
  - intros k1 m1 k2 m2 I1 I2 E. specialize (C _ I1). cbn beta in C. rewrite forallb_forall in C. specialize (C _ I2).
    cbn [snd] in C. rewrite (proj2 (PackageRT.exguid_eqb_eq _ _) E) in C. cbn [negb orb] in C. now apply serial_same_eq.
Qed.
Lemma determined_test_ok d : determined_test d = true -> determined d.
Proof.
  unfold determined_test. intros H pg rest E. rewrite E in H. rewrite !Bool.andb_true_iff, forallb_forall in H.
  destruct H as ((M & I) & U). apply Nat.leb_le in M. apply Nat.leb_le in I.
  refine (conj M (conj (or_intror I) _)). intros k si J. exact (serials_test_ok si (U _ J)).
Qed.
