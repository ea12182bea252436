(** Proofs for C99: buffers, files and notebooks. *)
From Coq Require Import Lia.
From Verif Require Import Base Codec Package PropSet Store Shapes Props Nodes Doc Notebook Getters SpecStore SpecNodes SpecDoc SpecGetters
  BaseProofs SpecNotebook DocProofs4 NotebookProofs NotebookProofs2 GettersProofs.

Lemma section_seen fuel st file s x : parse_section fuel st file = Ok s -> seen s x -> documented st file x.
Proof. intros H. apply seen_documented. exact (proj1 (section_settles st file s) fuel H). Qed.

Lemma buffer_seen h fuel bs file s : parse_section_buffer h fuel bs file = Ok s ->
  exists st, open_store h fuel bs = Ok st /\ forall x, seen s x -> documented st file x.
Proof.
  unfold parse_section_buffer. destruct (open_store h fuel bs) as [st| | |] eqn:E; cbn; try discriminate.
  destruct (st_schema st =? section_schema); [|discriminate]. intros H. exists st. split; [reflexivity|].
  intros x. exact (section_seen _ _ _ _ _ H).
Qed.

Lemma file_seen h fuel fs p s : parse_section_file h fuel fs p = Ok s ->
  exists bs n st, fs_read fs p = Some bs /\ file_name p = Some n /\ open_store h fuel bs = Ok st /\
    forall x, seen s x -> documented st n x.
Proof.
  unfold parse_section_file. destruct (fs_read fs p) as [bs|]; cbn; [|discriminate].
  destruct (open_store h fuel bs) as [st| | |] eqn:E; cbn; try discriminate.
  destruct (st_schema st =? section_schema); [|discriminate].
  destruct (file_name p) as [n|]; cbn; [|discriminate]. intros H. exists bs, n, st. repeat (split; [auto|]).
  intros x. exact (section_seen _ _ _ _ _ H).
Qed.

Lemma map_res_right {A B} (f : A -> res B) l m b : map_res f l = Ok m -> In b m -> exists a, In a l /\ f a = Ok b.
Proof.
  revert m. induction l as [|a l IH]; cbn; intros m; [intros [= <-] []|].
  destruct (f a) as [y| | |] eqn:E; cbn; try discriminate.
  destruct (map_res f l) as [ys| | |]; cbn; try discriminate. intros [= <-] [->|H]; [exists a; auto|].
  destruct (IH _ eq_refl H) as (a' & Ha & E'). exists a'. auto.
Qed.

Lemma notebook_seen sanitise h fuel fs depth : forall p nb s, parse_notebook sanitise h depth fuel fs p = Ok nb ->
  listed (Notebook_entries nb) s ->
  exists q bs n st, fs_read fs q = Some bs /\ file_name q = Some n /\ open_store h fuel bs = Ok st /\
    forall x, seen s x -> documented st n x.
Proof.
  induction depth as [|depth IH]; intros p nb s H L; [discriminate|]. cbn [parse_notebook] in H.
  destruct (fs_read fs p) as [data|]; cbn [ok_or rbind] in H; [|discriminate].
  destruct (open_store h fuel data) as [st| | |]; cbn [rbind] in H; try discriminate.
  destruct (st_schema st =? toc_schema); [|discriminate].
  destruct (parent p) as [dir|]; cbn [ok_or rbind] in H; [|discriminate].
  destruct (parse_toc fuel (st_data_root st)) as [(names, c)| | |]; cbn [rbind] in H; try discriminate.
  destruct (map_res (resolve_entry_path sanitise fs dir) names) as [paths| | |]; cbn [rbind] in H; try discriminate.
  cbv zeta in H. destruct (map_res _ (filter _ _)) as [es| | |] eqn:E in H; cbn [rbind] in H; try discriminate.
  injection H as <-. unfold Notebook_entries in L. cbn [nb_entries] in L.
  destruct L as [es e s He Es|es e g s He Eg L];
    destruct (map_res_right _ _ _ _ E He) as (q & _ & Hq); destruct (fs_is_file fs q).
  - destruct (parse_section_file h fuel fs q) as [s'| | |] eqn:Ef; cbn [rbind] in Hq; try discriminate. injection Hq as <-.
    cbn in Es. injection Es as ->. destruct (file_seen _ _ _ _ _ Ef) as (bs & n & st' & P). now exists q, bs, n, st'.
  - destruct (file_name q); cbn [ok_or rbind] in Hq; [|discriminate].
    destruct (fs_read_dir fs q); cbn [ok_or rbind] in Hq; [|discriminate].
    destruct (find_toc l); cbn [rbind] in Hq; try discriminate.
    destruct (parse_notebook _ _ _ _ _ _); cbn [rbind] in Hq; try discriminate. injection Hq as <-. discriminate.
  - destruct (parse_section_file h fuel fs q) as [s'| | |] eqn:Ef; cbn [rbind] in Hq; try discriminate. injection Hq as <-. discriminate.
  - destruct (file_name q); cbn [ok_or rbind] in Hq; [|discriminate].
    destruct (fs_read_dir fs q); cbn [ok_or rbind] in Hq; [|discriminate].
    destruct (find_toc l); cbn [rbind] in Hq; try discriminate.
    destruct (parse_notebook sanitise h depth fuel fs (q ++ [Normal a])) as [nb'| | |] eqn:En; cbn [rbind] in Hq; try discriminate.
    injection Hq as <-. cbn in Eg. injection Eg as <-. exact (IH _ _ _ En L).
Qed.

Lemma notebook_color_stored sanitise h fuel fs depth p nb : parse_notebook sanitise h depth fuel fs p = Ok nb ->
  exists bs st id o, fs_read fs p = Some bs /\ open_store h fuel bs = Ok st /\
    content_root (st_data_root st) = Some id /\ get_object (st_data_root st) id = Some o /\
    ob_jcid o = 0x00020001 /\ optional o 0x14001CBE a_color (Notebook_color nb).
Proof.
  destruct depth as [|depth]; intros H; [discriminate|]. cbn [parse_notebook] in H.
  destruct (fs_read fs p) as [data|]; cbn [ok_or rbind] in H; [|discriminate].
  destruct (open_store h fuel data) as [st| | |] eqn:Eo; cbn [rbind] in H; try discriminate.
  destruct (st_schema st =? toc_schema); [|discriminate].
  destruct (parent p) as [dir|]; cbn [ok_or rbind] in H; [|discriminate].
  destruct (parse_toc fuel (st_data_root st)) as [(names, c)| | |] eqn:Et; cbn [rbind] in H; try discriminate.
  destruct (map_res (resolve_entry_path sanitise fs dir) names) as [paths| | |]; cbn [rbind] in H; try discriminate.
  cbv zeta in H. destruct (map_res _ (filter _ _)) as [es| | |] eqn:E in H; cbn [rbind] in H; try discriminate.
  injection H as <-. cbn.
  assert (T : toc_is (st_data_root st) names c) by exact (proj1 (toc_settles _ _ _) fuel Et).
  destruct T as (id & ts & r & C & _ & _ & _ & o & Go & d & To & ->). unfold toc_object in To. decompose [and] To.
  exists data, st, id, o. repeat (split; [auto|]). unfold Notebook_color. cbn. now apply optional_color.
Qed.

Lemma notebook_groups sanitise h fuel fs depth : forall p nb g, parse_notebook sanitise h depth fuel fs p = Ok nb ->
  grouped (Notebook_entries nb) g ->
  exists dir files toc depth' nb', fs_exists fs dir = true /\ fs_is_file fs dir = false /\
    file_name dir = Some (SectionGroup_display_name g) /\ fs_read_dir fs dir = Some files /\ In (Some toc) files /\
    parse_notebook sanitise h depth' fuel fs (dir ++ [Normal toc]) = Ok nb' /\
    SectionGroup_entries g = Notebook_entries nb'.
Proof.
  induction depth as [|depth IH]; intros p nb g H L; [discriminate|]. cbn [parse_notebook] in H.
  destruct (fs_read fs p) as [data|]; cbn [ok_or rbind] in H; [|discriminate].
  destruct (open_store h fuel data) as [st| | |]; cbn [rbind] in H; try discriminate.
  destruct (st_schema st =? toc_schema); [|discriminate].
  destruct (parent p) as [dir|]; cbn [ok_or rbind] in H; [|discriminate].
  destruct (parse_toc fuel (st_data_root st)) as [(names, c)| | |]; cbn [rbind] in H; try discriminate.
  destruct (map_res (resolve_entry_path sanitise fs dir) names) as [paths| | |]; cbn [rbind] in H; try discriminate.
  cbv zeta in H. destruct (map_res _ (filter _ _)) as [es| | |] eqn:E in H; cbn [rbind] in H; try discriminate.
  injection H as <-. unfold Notebook_entries in L. cbn [nb_entries] in L.
  assert (K : forall e g0, In e es -> SectionEntry_SectionGroup e = Some g0 ->
    exists dir files toc nb', fs_exists fs dir = true /\ fs_is_file fs dir = false /\
      file_name dir = Some (SectionGroup_display_name g0) /\ fs_read_dir fs dir = Some files /\ In (Some toc) files /\
      parse_notebook sanitise h depth fuel fs (dir ++ [Normal toc]) = Ok nb' /\
      SectionGroup_entries g0 = Notebook_entries nb').
  { intros e g0 He Eg. destruct (map_res_right _ _ _ _ E He) as (q & Hin & Hq). apply filter_In in Hin as (Hin & _).
    apply filter_In in Hin as (_ & Hex). destruct (fs_is_file fs q) eqn:Hf.
    - destruct (parse_section_file h fuel fs q); cbn [rbind] in Hq; try discriminate. injection Hq as <-. discriminate.
    - destruct (file_name q) as [n|] eqn:En; cbn [ok_or rbind] in Hq; [|discriminate].
      destruct (fs_read_dir fs q) as [files|] eqn:Ed; cbn [ok_or rbind] in Hq; [|discriminate].
      destruct (find_toc files) as [toc| | |] eqn:Ef; cbn [rbind] in Hq; try discriminate.
      destruct (parse_notebook sanitise h depth fuel fs (q ++ [Normal toc])) as [nb'| | |] eqn:Ep; cbn [rbind] in Hq; try discriminate.
      injection Hq as <-. cbn in Eg. injection Eg as <-. exists q, files, toc, nb'. repeat (split; [auto; fail|]).
      split; [|split; [exact Ep|reflexivity]]. clear - Ef. revert Ef. induction files as [|[m|] files IH]; cbn; try discriminate.
      destruct (extension m); [destruct (name_eqb n onetoc2)|]; [intros [= ->]; now left| |]; intros H; right; auto. }
  destruct L as [es e g He Eg|es e g g' He Eg L]; destruct (K e g He Eg) as (q & files & toc & nb' & P).
  - now exists q, files, toc, depth, nb'.
  - destruct P as (_ & _ & _ & _ & _ & Ep & Ee). rewrite Ee in L. exact (IH _ _ _ Ep L).
Qed.
