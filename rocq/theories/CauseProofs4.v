(** Why a buffer cannot be read. *)
From Coq Require Import Lia ZifyBool ZifyNat ZifyN.
From Verif Require Import Base BaseProofs Codec Package PropSet PropIds Store Shapes Props Nodes Doc Notebook
  SpecCodec SpecStore SpecValues SpecNodes SpecKinds KindsProofs NodesProofs NodesProofs2 SpecDoc DocProofs DocProofs2
  DocProofs3 DocProofs4 DocProofs5 DocProofs6 SpecNotebook NotebookProofs NotebookProofs2 NotebookProofs3
  SpecCause CauseProofs CauseProofs2 CauseProofs3 OnceProofs BlameProofs.

Lemma buffer_cause h f data file e : parse_section_buffer h f data file = Err e ->
  ((forall st, ~ opens h data st) /\ In e container_kinds) \/
  exists st, opens h data st /\
    ((st_schema st <> 0x1F937CB4B26F445FB9F817E20160E461 /\ e = NotASectionFile) \/
     (st_schema st = 0x1F937CB4B26F445FB9F817E20160E461 /\ fault st e)).
Proof.
  intro H. unfold parse_section_buffer in H. apply bind_err in H as [H|(st & O & H)].
  - left. split; [|exact (open_store_kinds h f data e H)]. intros st (f' & H').
    exact (fails_for_good (fun f => open_store h f data) f e (fun a b L => open_fuel h a b data L) H f' st H').
  - right. exists st. split; [now exists f|].
    destruct (N.eqb_spec (st_schema st) section_schema) as [Q|Q].
    + right. split; [exact Q|]. exact (section_blame st f file e H).
    + left. split; [exact Q|]. now injection H as <-.
Qed.
Lemma buffer_prevented h data st e : opens h data st -> fault st e ->
  forall f file s, parse_section_buffer h f data file <> Ok s.
Proof.
  intros O F f file s H. unfold parse_section_buffer in H. apply bind_ok in H as (st' & O' & H).
  assert (st' = st) as -> by exact (opens_fun h data st' st (ex_intro _ f O') O).
  destruct (st_schema st =? section_schema)%N; [|discriminate H].
  exact (fault_unreadable st file s e (proj1 (section_iff st file s) (ex_intro _ f H)) F).
Qed.
Lemma opened_cause h f data file e st : opens h data st -> parse_section_buffer h f data file = Err e ->
  (st_schema st <> 0x1F937CB4B26F445FB9F817E20160E461 /\ e = NotASectionFile) \/
  (st_schema st = 0x1F937CB4B26F445FB9F817E20160E461 /\ fault st e).
Proof.
  intros O H. destruct (buffer_cause h f data file e H) as [(N & _)|(st' & O' & K)]; [contradiction (N st O)|].
  now rewrite (opens_fun h data st st' O O').
Qed.
Lemma buffer_only h data st e : opens h data st -> st_schema st = 0x1F937CB4B26F445FB9F817E20160E461 ->
  (forall e', fault st e' -> e' = e) ->
  forall f file e', parse_section_buffer h f data file = Err e' -> e' = e.
Proof. intros O Q A f file e' H. destruct (opened_cause _ _ _ _ _ _ O H) as [(N & _)|(_ & F)]; [contradiction (N Q)|auto]. Qed.
Lemma buffer_none h data st : opens h data st -> st_schema st = 0x1F937CB4B26F445FB9F817E20160E461 ->
  (forall e, ~ fault st e) -> forall f file e, parse_section_buffer h f data file <> Err e.
Proof. intros O Q A f file e H. destruct (opened_cause _ _ _ _ _ _ O H) as [(N & _)|(_ & F)]; [exact (N Q)|exact (A e F)]. Qed.
Lemma toc_prevented sp e : toc_fault sp e -> forall f r, parse_toc f sp <> Ok r.
Proof.
  intros F f (names & c) H. exact (toc_fault_unreadable sp names c e (proj1 (toc_settles sp names c) f H) F).
Qed.

Lemma character_cause h f data file st : opens h data st -> parse_section_buffer h f data file = Err Utf16Error ->
  exists sp i o run style, visits st sp i R_text /\ get_object sp i = Some o /\ run_of sp o run style /\
    sy_math_formatting style = true /\ half_character run.
Proof.
  intros O H. destruct (opened_cause _ _ _ _ _ _ O H) as [(_ & K)|(_ & F)]; [discriminate K|].
  inversion F as [| | | |sp i r o e V G W E]; subst. inversion W; subst. eauto 10.
Qed.
Lemma short_cause h f data file st : opens h data st -> parse_section_buffer h f data file = Err UnexpectedEof ->
  exists sp i r o, visits st sp i r /\ get_object sp i = Some o /\
    ((In r [R_section; R_series; R_page_meta] /\ short_guid o) \/ (In r [R_outline; R_cell] /\ short_indents o)).
Proof.
  intros O H. destruct (opened_cause _ _ _ _ _ _ O H) as [(_ & K)|(_ & F)]; [discriminate K|].
  inversion F as [| | | |sp i r o e V G W E]; subst. exists sp, i, r, o. inversion W; subst; auto.
Qed.
