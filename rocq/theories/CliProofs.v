(** The command line program. *)
From Coq Require Import Lia.
From Verif Require Import Base Store Doc Notebook SpecNotebook NodesProofs NotebookProofs NotebookProofs2 SpecCli Cli.

Definition as_component (w : name) : component := if name_eqb w [dot; dot] then ParentDir else Normal w.
Definition counts (w : name) : bool := negb (name_eqb w []) && negb (name_eqb w [dot]).
Lemma counts_iff w : counts w = true <-> not_dot w.
Proof. unfold counts, not_dot. rewrite andb_true_iff, !negb_true_iff, !name_eqb_neq. reflexivity. Qed.
Lemma pieces_counted ws : flat_map piece ws = map as_component (filter counts ws).
Proof.
  induction ws as [|w ws IH]; [reflexivity|]. cbn [flat_map filter]. rewrite IH. unfold piece, counts, as_component.
  destruct (name_eqb w []); [reflexivity|]. destruct (name_eqb w [dot]); [reflexivity|].
  cbn [negb andb map]. now destruct (name_eqb w [dot; dot]).
Qed.
Lemma toc_name_plain n : toc_name n -> not_dot n /\ n <> [dot; dot].
Proof.
  intros (stem & Hs & ->). destruct stem as [|x stem]; [easy|]. repeat split; try discriminate;
    intro E; injection E as _ E; destruct stem as [|y [|z stem]]; discriminate E.
Qed.
Lemma last_counted l n : n <> [dot; dot] ->
  ((exists b, map as_component l = b ++ [Normal n]) <-> exists ns, l = ns ++ [n]).
Proof.
  intro D. split.
  - intros (b & E). destruct l as [|x l] using rev_ind; [now destruct b|]. exists l. f_equal.
    rewrite map_app in E. apply app_inj_tail in E as (_ & E). unfold as_component in E.
    destruct (name_eqb x [dot; dot]); [discriminate E|]. injection E as ->. reflexivity.
  - intros (ns & ->). exists (map as_component ns). rewrite map_app. cbn [map]. unfold as_component at 2.
    apply name_eqb_neq in D. now rewrite D.
Qed.
Lemma snoc_cons {A} (x : A) l n : x <> n -> ((exists b, x :: l = b ++ [n]) <-> exists b, l = b ++ [n]).
Proof.
  intro D. split.
  - intros ([|y b] & E); cbn in E; injection E as E1 E2; [congruence | eauto].
  - intros (b & ->). now exists (x :: b).
Qed.
(** The components of a path end in a toc name exactly if its pieces do. *)
Lemma components_last s n : toc_name n ->
  ((exists b, components s = b ++ [Normal n]) <-> exists ns, filter counts (split_slash s) = ns ++ [n]).
Proof.
  intro T. destruct (toc_name_plain n T) as (D & D2). unfold components. pose proof (split_pieces s) as (Ne & Fs & J).
  destruct (split_slash s) as [|w ws]; [easy|]. destruct s as [|c r].
  - destruct w as [|x w]; [|destruct ws; discriminate J]. destruct ws as [|v ws]; [|discriminate J]. cbn.
    split; intros ([|? ?] & E); discriminate E.
  - rewrite <- (last_counted _ n D2). destruct (N.eqb_spec c slash) as [->|Hc].
    + assert (w = []) as ->.
      { destruct w as [|x w]; [reflexivity|]. exfalso. apply Forall_inv in Fs. apply Fs. left.
        destruct ws; cbn in J; injection J as J _; now symmetry. }
      cbn [filter]. change (counts []) with false. cbn iota. rewrite pieces_counted. apply snoc_cons; discriminate.
    + destruct (name_eqb w [dot]) eqn:W.
      * apply name_eqb_eq in W as ->. cbn [filter]. change (counts [dot]) with false. cbn iota. rewrite pieces_counted.
        apply snoc_cons; discriminate.
      * rewrite pieces_counted. reflexivity.
Qed.

Lemma names_toc_iff arg : match path_extension (components arg) with Some e => name_eqb e onetoc2 | None => false end = true <-> names_toc arg.
Proof.
  assert (K : names_toc arg <-> exists n, toc_name n /\ exists b, components arg = b ++ [Normal n]).
  { split.
    - intros (ws & ns & n & P & F & T). exists n. split; [exact T|]. apply components_last; [exact T|]. exists ns.
      rewrite (pieces_split arg ws P). apply (picks_filter_iff not_dot counts); [exact counts_iff | exact F].
    - intros (n & T & H). apply components_last in H as (ns & H); [|exact T]. exists (split_slash arg), ns, n.
      refine (conj (split_pieces arg) (conj _ T)). apply (picks_filter_iff not_dot counts); [exact counts_iff | exact H]. }
  rewrite K. unfold path_extension. destruct (file_name (components arg)) as [n|] eqn:F.
  - apply file_name_iff in F as (base & F). unfold ends_in in F. split.
    + intro H. exists n. split; [|eauto]. apply toc_name_iff. destruct (extension n); [eauto|discriminate H].
    + intros (m & T & b & E). rewrite E in F. apply app_inj_tail in F as (_ & F). injection F as ->.
      apply toc_name_iff in T as (e & -> & T). exact T.
  - split; [discriminate|]. intros (m & T & b & E). assert (file_name (components arg) = Some m) by (apply file_name_iff; eauto). congruence.
Qed.
Lemma names_toc_dec arg : {names_toc arg} + {~ names_toc arg}.
Proof.
  destruct (match path_extension (components arg) with Some e => name_eqb e onetoc2 | None => false end) eqn:E.
  - left. now apply names_toc_iff.
  - right. intro H. apply names_toc_iff in H. congruence.
Qed.

Section Cli.
  Variables (sanitise : name -> name) (h : order) (d f : nat) (fs : filesystem).
  Notation cli := (cli_main sanitise h d f fs).
  Lemma unwrap_ok {A} (r : res A) a : unwrap r = Ok a <-> r = Ok a.
  Proof. destruct r; cbn; split; congruence. Qed.
  Lemma cli_toc prog arg rest : names_toc arg -> cli (prog :: arg :: rest) =
    rbind (unwrap (parse_notebook sanitise h d f fs (components arg))) (fun n => Ok (PrNotebook n)).
  Proof. intro T. apply names_toc_iff in T. unfold cli_main. cbn [nth_error]. cbv zeta. now rewrite T. Qed.
  Lemma cli_other prog arg rest : ~ names_toc arg -> cli (prog :: arg :: rest) =
    rbind (unwrap (parse_section_file h f fs (components arg))) (fun s => Ok (PrSection s)).
  Proof.
    intro T. unfold cli_main. cbn [nth_error]. cbv zeta.
    destruct (match path_extension (components arg) with Some e => name_eqb e onetoc2 | None => false end) eqn:E; [|reflexivity].
    apply names_toc_iff in E. contradiction.
  Qed.
  Lemma cli_notebook prog arg rest nb : names_toc arg ->
    cli (prog :: arg :: rest) = Ok (PrNotebook nb) <-> parse_notebook sanitise h d f fs (components arg) = Ok nb.
  Proof.
    intro T. rewrite (cli_toc prog arg rest T). destruct (parse_notebook sanitise h d f fs (components arg)); cbn; split; congruence.
  Qed.
  Lemma cli_section prog arg rest s : ~ names_toc arg ->
    cli (prog :: arg :: rest) = Ok (PrSection s) <-> parse_section_file h f fs (components arg) = Ok s.
  Proof.
    intro T. rewrite (cli_other prog arg rest T). destruct (parse_section_file h f fs (components arg)); cbn; split; congruence.
  Qed.
  Lemma cli_either args out : cli args = Ok out -> exists prog arg rest, args = prog :: arg :: rest /\
    match out with PrNotebook _ => names_toc arg | PrSection _ => ~ names_toc arg end.
  Proof.
    destruct args as [|prog [|arg rest]]; try discriminate. intro H. exists prog, arg, rest. split; [reflexivity|].
    destruct (names_toc_dec arg) as [T|T]; [rewrite (cli_toc _ _ _ T) in H | rewrite (cli_other _ _ _ T) in H].
    - destruct (parse_notebook sanitise h d f fs (components arg)); cbn in H; try discriminate H. now injection H as <-.
    - destruct (parse_section_file h f fs (components arg)); cbn in H; try discriminate H. now injection H as <-.
  Qed.
  Lemma cli_crash args : cli args = Panic <->
    (length args < 2)%nat \/ exists prog arg rest, args = prog :: arg :: rest /\
      ((names_toc arg /\ failed (parse_notebook sanitise h d f fs (components arg))) \/
       (~ names_toc arg /\ failed (parse_section_file h f fs (components arg)))).
  Proof.
    destruct args as [|prog [|arg rest]]; try (split; [left; cbn; lia | reflexivity]).
    split.
    - intro H. right. exists prog, arg, rest. split; [reflexivity|].
      destruct (names_toc_dec arg) as [T|T]; [left; rewrite (cli_toc _ _ _ T) in H | right; rewrite (cli_other _ _ _ T) in H];
        (split; [exact T|]); unfold failed.
      + destruct (parse_notebook sanitise h d f fs (components arg)); cbn in H; try discriminate H; eauto.
      + destruct (parse_section_file h f fs (components arg)); cbn in H; try discriminate H; eauto.
    - intros [L|(p & a & r & E & H)]; [cbn in L; lia|]. injection E as <- <- <-. unfold failed in H.
      destruct H as [(T & F)|(T & F)]; [rewrite (cli_toc _ _ _ T) | rewrite (cli_other _ _ _ T)]; destruct F as [->|(e & ->)]; reflexivity.
  Qed.
  Lemma cli_no_error args e : cli args <> Err e.
  Proof.
    destruct args as [|prog [|arg rest]]; try discriminate.
    destruct (names_toc_dec arg) as [T|T]; [rewrite (cli_toc _ _ _ T) | rewrite (cli_other _ _ _ T)].
    - now destruct (parse_notebook sanitise h d f fs (components arg)).
    - now destruct (parse_section_file h f fs (components arg)).
  Qed.
End Cli.
