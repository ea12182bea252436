(** Which files open, on the bytes. *)
From Coq Require Import Lia ZifyBool ZifyNat ZifyN.
From Verif Require Import Base BaseProofs Codec Package PropSet Store Doc Notebook SpecStore SpecNotebook SpecCause
  StoreProofs StoreProofs3 CauseProofs4 SpecOpen OpenProofs.

Lemma opens_iff h data : (exists st, opens h data st) <->
  exists pg rest, packaging_parse data = Ok (pg, rest) /\ (forall e, ~ store_fault h pg e) /\ ~ endless h pg.
Proof.
  split.
  - intros (st & fuel & H). apply open_taken in H as (pg & rest & H & K). exists pg, rest. split; [exact H|].
    apply (store_opens h pg (packaging_parse_ok _ _ _ H)). eauto.
  - intros (pg & rest & H & K). apply (store_opens h pg (packaging_parse_ok _ _ _ H)) in K as (fuel & st & K).
    exists st, fuel. now rewrite (open_of _ _ _ _ _ H).
Qed.
Lemma opening_only h data pg rest e : packaging_parse data = Ok (pg, rest) ->
  store_fault h pg e -> (forall e', store_fault h pg e' -> e' = e) -> ~ endless h pg ->
  forall fuel, (length (pk_revisions (pg_package pg)) < fuel)%nat -> open_store h fuel data = Err e.
Proof.
  intros H F U N fuel L. rewrite (open_of _ _ _ _ _ H). pose proof (packaging_parse_ok _ _ _ H) as PK.
  destruct (parse_store h fuel pg) as [st|k| |] eqn:E.
  - contradiction (store_prevented h pg PK _ _ _ F E).
  - f_equal. apply U. exact (store_cause h pg PK _ _ E).
  - contradiction (parse_store_no_panic _ _ _ E).
  - contradiction (store_ends h pg PK fuel N L E).
Qed.
Lemma opening_endless h data pg rest : packaging_parse data = Ok (pg, rest) -> endless h pg ->
  forall fuel, (exists e, open_store h fuel data = Err e /\ store_fault h pg e) \/ open_store h fuel data = OutOfFuel.
Proof.
  intros H F fuel. rewrite (open_of _ _ _ _ _ H). pose proof (packaging_parse_ok _ _ _ H) as PK.
  destruct (parse_store h fuel pg) as [st|k| |] eqn:E.
  - contradiction (store_circles h pg PK _ _ F E).
  - left. exists k. split; [reflexivity|]. exact (store_cause h pg PK _ _ E).
  - contradiction (parse_store_no_panic _ _ _ E).
  - now right.
Qed.
Lemma section_cause h fuel data file e : parse_section_buffer h fuel data file = Err e ->
  packaging_parse data = Err e \/
  exists pg rest, packaging_parse data = Ok (pg, rest) /\
    (store_fault h pg e \/
     exists st, opens h data st /\
       ((st_schema st <> 0x1F937CB4B26F445FB9F817E20160E461 /\ e = NotASectionFile) \/
        (st_schema st = 0x1F937CB4B26F445FB9F817E20160E461 /\ fault st e))).
Proof.
  intros H. destruct (open_store h fuel data) as [st|k| |] eqn:O.
  - assert (S : opens h data st) by (exists fuel; exact O). right.
    apply open_taken in O as (pg & rest & P & _). exists pg, rest. split; [exact P|]. right. exists st. split; [exact S|].
    exact (opened_cause _ _ _ _ _ _ S H).
  - assert (k = e) as -> by (unfold parse_section_buffer in H; rewrite O in H; cbn [rbind] in H; congruence).
    destruct (opening_cause _ _ _ _ O) as [K|(pg & rest & K & F)]; [now left|]. right. exists pg, rest. auto.
  - unfold parse_section_buffer in H. rewrite O in H. discriminate H.
  - unfold parse_section_buffer in H. rewrite O in H. discriminate H.
Qed.
