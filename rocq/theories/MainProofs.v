(** Proofs about the program with arguments as bytes. *)
From Verif Require Import Base Codec SpecCodec Package PropSet Store Props Nodes Doc Notebook SpecNotebook Cli SpecCli CliProofs Unix SpecUnix UnixProofs Message SpecMessage MessageProofs Bytes SpecBytes BytesProofs Main.

Lemma path_arg_ok args t : path_arg args = Ok t <-> exists a s rest, args = utf8 a :: utf8 s :: rest /\ Forall scalar a /\ Forall scalar s /\ t = s.
Proof.
  unfold path_arg. destruct args as [|x r]; cbn [next_arg rbind]; [split; [discriminate|intros (? & ? & ? & E & _); discriminate E]|].
  destruct (to_str x) as [a|] eqn:A; cbn [rbind].
  - apply to_str_iff in A as (A & ->). destruct r as [|y r]; cbn [next_arg rbind]; [split; [discriminate|intros (? & ? & ? & E & _); discriminate E]|].
    destruct (to_str y) as [s|] eqn:Y; cbn [rbind].
    + apply to_str_iff in Y as (Y & ->). split; [intro E; injection E as <-; now exists a, s, r|]. intros (a' & s' & r' & E & A' & S' & ->). injection E as E1 E2 _. apply (utf8_inj s s' Y S') in E2. now subst.
    + split; [discriminate|]. intros (a' & s' & r' & E & A' & S' & ->). injection E as _ -> _. now rewrite (proj2 (to_str_iff _ s') (conj S' eq_refl)) in Y.
  - split; [discriminate|]. intros (a' & s' & r' & E & A' & _). injection E as -> _. now rewrite (proj2 (to_str_iff _ a') (conj A' eq_refl)) in A.
Qed.
Lemma path_arg_else args : (forall t, path_arg args <> Ok t) -> path_arg args = Panic.
Proof.
  unfold path_arg. destruct args as [|x [|y r]]; cbn [next_arg rbind]; [reflexivity| |]; destruct (to_str x); cbn [rbind next_arg]; try reflexivity.
  destruct (to_str y) as [s|]; cbn [rbind]; [intro H; now elim (H s)|reflexivity].
Qed.
Lemma toc_ext t : Forall scalar t ->
  match t_extension (utf8 t) with Some e => name_eqb e onetoc2 | None => false end = match path_extension (components t) with Some e => name_eqb e onetoc2 | None => false end.
Proof.
  intro U. rewrite (extension_u t U). unfold path_extension. rewrite <- last_file_name. fold (t_extension t). destruct (t_extension t) as [e|] eqn:E; cbn [option_map]; [|reflexivity].
  apply name_eqb_low; [exact (extension_uni t e U E)|reflexivity].
Qed.
Lemma main_agrees f h d fuel B T F a t rest : spelled B T -> takes_apart T F -> plain t -> Forall scalar a -> Forall scalar t ->
  main_bytes f h d fuel B (utf8 a :: utf8 t :: rest) = cli_main f h d fuel F (a :: t :: rest).
Proof.
  intros SP TA P A U. unfold main_bytes, cli_main. rewrite (proj2 (path_arg_ok (utf8 a :: utf8 t :: rest) t)) by (now exists a, t, rest). cbn [rbind nth_error]. cbv zeta.
  rewrite (toc_ext t U), (notebook_u f h fuel B T SP d t U), (section_u h fuel B T t SP U), bare_notebook, bare_section, (notebook_ok f h fuel T F TA d t P), (section_ok h fuel T F t TA P). reflexivity.
Qed.
Lemma unwrap_ok {A} (r : res A) a : unwrap r = Ok a <-> r = Ok a.
Proof. destruct r; cbn; split; congruence. Qed.
Lemma main_prints f h d fuel B args v : main_bytes f h d fuel B args = Ok v <->
  exists a t rest, args = utf8 a :: utf8 t :: rest /\ Forall scalar a /\ Forall scalar t /\
    ((names_toc t /\ exists n, v = PrNotebook n /\ b_notebook f h d fuel B (utf8 t) = MGot n) \/
     (~ names_toc t /\ exists s, v = PrSection s /\ b_section h fuel B (utf8 t) = MGot s)).
Proof.
  assert (BG : forall A (m : mres A) a, bare m = Ok a <-> m = MGot a) by (intros A m a; destruct m; cbn; split; congruence).
  unfold main_bytes. destruct (path_arg args) as [t| | |] eqn:PA; cbn [rbind].
  - pose proof (proj1 (path_arg_ok args t) PA) as (a & s & rest & -> & A & S & ->). rewrite (toc_ext s S). cbv zeta.
    destruct (match path_extension (components s) with Some e => name_eqb e onetoc2 | None => false end) eqn:E.
    + pose proof (proj1 (names_toc_iff s) E) as NT. split.
      * destruct (unwrap _) as [n| | |] eqn:U; try discriminate. cbn [rbind]. intro H. injection H as <-. apply unwrap_ok, BG in U. exists a, s, rest. repeat (split; [trivial|]). left. split; [exact NT|]. now exists n.
      * intros (a' & t' & r' & Ea & A' & T' & H). injection Ea as E1 E2 E3. apply (utf8_inj s t' S T') in E2. subst t'. destruct H as [(_ & n & -> & H)|(N & _)]; [|contradiction]. apply BG in H. rewrite H. reflexivity.
    + assert (NT : ~ names_toc s) by (intro X; apply names_toc_iff in X; congruence). split.
      * destruct (unwrap _) as [n| | |] eqn:U; try discriminate. cbn [rbind]. intro H. injection H as <-. apply unwrap_ok, BG in U. exists a, s, rest. repeat (split; [trivial|]). right. split; [exact NT|]. now exists n.
      * intros (a' & t' & r' & Ea & A' & T' & H). injection Ea as E1 E2 E3. apply (utf8_inj s t' S T') in E2. subst t'. destruct H as [(N & _)|(_ & n & -> & H)]; [contradiction|]. apply BG in H. rewrite H. reflexivity.
  - split; [discriminate|]. intros (a & t & rest & E & A & T & _). assert (X : path_arg args = Ok t) by (apply path_arg_ok; now exists a, t, rest). congruence.
  - split; [discriminate|]. intros (a & t & rest & E & A & T & _). assert (X : path_arg args = Ok t) by (apply path_arg_ok; now exists a, t, rest). congruence.
  - split; [discriminate|]. intros (a & t & rest & E & A & T & _). assert (X : path_arg args = Ok t) by (apply path_arg_ok; now exists a, t, rest). congruence.
Qed.
(** Never an error value: a failure is a panic. *)
Lemma main_no_error f h d fuel B args e : main_bytes f h d fuel B args <> Err e.
Proof.
  unfold main_bytes. destruct (path_arg args) as [t| | |] eqn:PA; cbn [rbind]; try discriminate.
  - cbv zeta. destruct (match t_extension _ with Some e0 => _ | None => _ end); [destruct (bare (b_notebook _ _ _ _ _ _))|destruct (bare (b_section _ _ _ _))]; cbn [unwrap rbind]; discriminate.
  - rewrite path_arg_else in PA; [discriminate|]. intros t X. congruence.
Qed.
(** A bad command line: a panic, whatever the file system. *)
Lemma main_usage f h d fuel B args : (forall a t rest, Forall scalar a -> Forall scalar t -> args <> utf8 a :: utf8 t :: rest) -> main_bytes f h d fuel B args = Panic.
Proof.
  intro H. unfold main_bytes. rewrite path_arg_else; [reflexivity|]. intros t X. apply path_arg_ok in X as (a & s & rest & -> & A & S & _). now elim (H a s rest A S).
Qed.
Lemma main_rest f h d fuel B a t r r' : main_bytes f h d fuel B (a :: t :: r) = main_bytes f h d fuel B (a :: t :: r').
Proof.
  assert (P : path_arg (a :: t :: r) = path_arg (a :: t :: r')) by (unfold path_arg; cbn [next_arg]; destruct (to_str a); cbn [rbind next_arg]; [|reflexivity]; destruct (to_str t); reflexivity).
  unfold main_bytes. now rewrite P.
Qed.
