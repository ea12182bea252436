(** The texts of errors. *)
From Coq Require Import Lia ZifyBool ZifyNat ZifyN String Ascii.
From Verif Require Import Base Codec Package PropSet Store Props Nodes Doc Notebook SpecKinds KindsProofs Report SpecReport ReportProofs
  Unix SpecUnix UnixProofs Message SpecMessage.
Local Open Scope nat_scope.
Local Open Scope list_scope.

(** ** The results are those of Unix.v *)
Lemma bare_bind {A B} (m : mres A) (f : A -> mres B) : bare (mbind m f) = rbind (bare m) (fun a => bare (f a)).
Proof. now destruct m. Qed.
Lemma bare_or {A} r (o : option A) : bare (or_tell r o) = ok_or (told_kind r) o.
Proof. now destruct o. Qed.
Lemma bare_beneath {A} (m : res A) : bare (beneath m) = m.
Proof. now destruct m. Qed.
Lemma bare_map {A B} (f : A -> mres B) (g : A -> res B) l : (forall a, bare (f a) = g a) -> bare (mmap f l) = map_res g l.
Proof.
  intro H. induction l as [|a l IH]; [reflexivity|]. cbn [mmap map_res]. rewrite bare_bind, H. apply rbind_ext. intro b. now rewrite bare_bind, IH.
Qed.
Lemma bare_sanitize f cs : forall buf, bare (m_sanitize f buf cs) = t_sanitize f buf cs.
Proof.
  induction cs as [|c cs IH]; intro buf; [reflexivity|]. destruct c; cbn [m_sanitize t_sanitize]; try reflexivity; [apply IH|]. destruct (name_eqb _ _); [apply IH|reflexivity].
Qed.
Lemma bare_resolve f T base e : bare (m_resolve f T base e) = t_resolve f T base e.
Proof.
  unfold m_resolve, t_resolve. destruct (is_absolute e); [reflexivity|]. rewrite bare_bind, bare_sanitize. apply rbind_ext. intros [|x s]; [reflexivity|]. cbv zeta.
  destruct (tfs_exists _ _); [|reflexivity]. rewrite bare_bind, bare_or. apply rbind_ext. intro b. rewrite bare_bind, bare_or. apply rbind_ext. intro c. now destruct (starts_with _ _).
Qed.
Lemma bare_section h fuel T t : bare (m_section h fuel T t) = t_parse_section_file h fuel T t.
Proof.
  unfold m_section, t_parse_section_file. rewrite bare_bind, bare_or. apply rbind_ext. intro d. rewrite bare_bind, bare_beneath. apply rbind_ext. intro st.
  destruct (_ =? _)%N; [|reflexivity]. rewrite bare_bind, bare_or. apply rbind_ext. intro n. apply bare_beneath.
Qed.
Lemma bare_buffer h fuel d n : bare (m_section_buffer h fuel d n) = parse_section_buffer h fuel d n.
Proof.
  unfold m_section_buffer, parse_section_buffer. rewrite bare_bind, bare_beneath. apply rbind_ext. intro st. destruct (_ =? _)%N; [|reflexivity]. apply bare_beneath.
Qed.
Lemma bare_toc dir l : bare (m_toc dir l) = t_find_toc dir l.
Proof.
  induction l as [|[n|] l IH]; cbn [m_toc t_find_toc]; try reflexivity. cbv zeta. destruct (t_extension _) as [e|]; [|exact IH]. destruct (name_eqb _ _); [reflexivity|exact IH].
Qed.
Lemma bare_notebook f h fuel T : forall depth t, bare (m_notebook f h depth fuel T t) = t_parse_notebook f h depth fuel T t.
Proof.
  induction depth as [|d IH]; intro t; cbn [m_notebook t_parse_notebook]; [reflexivity|].
  rewrite bare_bind, bare_or. apply rbind_ext. intro data. rewrite bare_bind, bare_beneath. apply rbind_ext. intro st. destruct (_ =? _)%N; [|reflexivity].
  rewrite bare_bind, bare_or. apply rbind_ext. intro base. rewrite bare_bind, bare_beneath. apply rbind_ext. intros [names color].
  rewrite bare_bind, (bare_map _ (t_resolve f T base)) by (intro; apply bare_resolve). apply rbind_ext. intro ps. cbv zeta. rewrite bare_bind.
  erewrite bare_map; [reflexivity|]. intro p. cbn beta. destruct (tfs_is_file T p).
  - rewrite bare_bind, bare_section. reflexivity.
  - rewrite bare_bind, bare_or. apply rbind_ext. intro dn. rewrite bare_bind, bare_or. apply rbind_ext. intro fl. rewrite bare_bind, bare_toc. apply rbind_ext. intro tc.
    now rewrite bare_bind, IH.
Qed.
Lemma bare_got {A} (m : mres A) a : m = MGot a -> bare m = Ok a.
Proof. now intros ->. Qed.

(** ** The words are those of Report.v *)
Definition malike {A B} (R : A -> B -> Prop) (m : mres A) (n : rep B) : Prop :=
  match m, n with
  | MGot a, Got b => R a b
  | MSaid r, Said s => in_components r = s
  | MCrashed, Crashed => True
  | MTooDeep, TooDeep => True
  | _, _ => False
  end.
Lemma malike_bind {A B C D} (R : A -> B -> Prop) (Q : C -> D -> Prop) m n f g :
  malike R m n -> (forall a b, R a b -> malike Q (f a) (g b)) -> malike Q (mbind m f) (pbind n g).
Proof. destruct m, n; cbn; try contradiction; auto. Qed.
Lemma malike_eq {A} (m : mres A) n : malike eq m n <-> as_rep m = n.
Proof. destruct m, n; cbn; split; intro H; try contradiction; try discriminate H; try (now rewrite H); try (now injection H); auto. Qed.
Lemma malike_beneath {A} (m : res A) : malike eq (beneath m) (below_ m).
Proof. now destruct m. Qed.
Lemma malike_or {A} r (o : option A) : malike eq (or_tell r o) (or_say (in_components r) o).
Proof. now destruct o. Qed.
Lemma malike_map {A B C} (R : B -> C -> Prop) (f : A -> mres B) (g : A -> rep C) l : (forall a, malike R (f a) (g a)) -> malike (Forall2 R) (mmap f l) (pmap g l).
Proof.
  intro H. induction l as [|a l IH]; cbn [mmap pmap]; [constructor|]. eapply malike_bind; [apply H|]. intros b c Rbc. eapply malike_bind; [exact IH|]. intros bs cs F. now constructor.
Qed.
Lemma malike_map2 {A} (f : text -> mres A) (g : path -> rep A) l m : (forall t, plain t -> malike eq (f t) (g (components t))) -> Forall2 stands l m ->
  malike eq (mmap f l) (pmap g m).
Proof.
  intros H. induction 1 as [|t p l m (C & P) _ IH]; cbn [mmap pmap]; [reflexivity|]. eapply malike_bind; [rewrite <- C; exact (H t P)|]. intros a ? <-.
  eapply malike_bind; [exact IH|]. now intros b ? <-.
Qed.
Lemma say_sanitize_ok f cs : (forall n, In (Normal n) cs -> proper_name n) -> forall l, Forall proper_name l ->
  malike (fun t p => exists k, Forall proper_name (l ++ k) /\ t = joined (l ++ k) /\ p = map Normal k) (m_sanitize f (joined l) cs) (say_components f cs).
Proof.
  induction cs as [|c cs IH]; intros P l F; cbn [m_sanitize say_components]; [exists []; rewrite app_nil_r; auto|].
  assert (P' : forall n, In (Normal n) cs -> proper_name n) by (intros n I; apply P; now right). destruct c as [| | |n]; try reflexivity; [exact (IH P' l F)|].
  destruct (name_eqb (f n) n); [|reflexivity]. pose proof (P n (or_introl eq_refl)) as Pn. rewrite push_joined by assumption.
  assert (F' : Forall proper_name (l ++ [n])) by (apply Forall_app; auto). specialize (IH P' _ F').
  destruct (m_sanitize f (joined (l ++ [n])) cs), (say_components f cs); cbn [pbind malike] in *; try contradiction; auto.
  destruct IH as (k & H1 & H2 & ->). exists (n :: k). rewrite <- app_assoc in *. auto.
Qed.
Lemma say_resolve_ok f T F base e : takes_apart T F -> plain base ->
  malike stands (m_resolve f T base e) (say_resolve f F (components base) e).
Proof.
  intros TA PB. unfold m_resolve, say_resolve. destruct (is_absolute e); [reflexivity|].
  eapply malike_bind; [exact (say_sanitize_ok f (components e) (components_proper e) [] (Forall_nil _))|]. cbn [app joined]. intros t p (l & Fl & -> & ->).
  destruct (joined_facts l Fl) as (A & D & E & Z & _). destruct l as [|n l]; [reflexivity|].
  destruct (joined (n :: l)) as [|x s] eqn:J; [specialize (Z eq_refl); discriminate Z|]. cbn [map]. rewrite <- J in *. clear x s J.
  set (t := t_push base (joined (n :: l))). change (Normal n :: map Normal l) with (map Normal (n :: l)). cbv zeta.
  assert (CT : components t = components base ++ map Normal (n :: l)) by (unfold t; rewrite push_ok by assumption; now rewrite joined_components by exact Fl).
  assert (PT : plain t) by (apply push_names; [discriminate|exact Fl]).
  rewrite <- CT, <- (ta_exists _ _ TA t PT). destruct (tfs_exists T t); [|now split].
  rewrite <- (ta_canonicalize _ _ TA base PB), <- (ta_canonicalize _ _ TA t PT).
  destruct (tfs_canonicalize T base) as [b|]; cbn [option_map or_tell or_say mbind pbind malike]; [|reflexivity].
  destruct (tfs_canonicalize T t) as [u|]; cbn [option_map or_tell or_say mbind pbind malike]; [|reflexivity].
  destruct (starts_with _ _); [now split|reflexivity].
Qed.
Lemma say_section_ok h fuel T F t : takes_apart T F -> plain t -> malike eq (m_section h fuel T t) (say_section h fuel F (components t)).
Proof.
  intros TA P. unfold m_section, say_section. rewrite (ta_read _ _ TA t P). eapply malike_bind; [apply malike_or|]. intros d ? <-.
  eapply malike_bind; [apply malike_beneath|]. intros st ? <-. destruct (_ =? _)%N; [|reflexivity]. rewrite last_file_name.
  eapply malike_bind; [apply malike_or|]. intros n ? <-. apply malike_beneath.
Qed.
Lemma say_toc_ok dir l : (forall n, In (Some n) l -> proper_name n) ->
  malike (fun t n => components t = components dir ++ [Normal n] /\ plain t) (m_toc dir l) (say_toc (components dir) l).
Proof.
  induction l as [|[n|] l IH]; intro P; cbn [m_toc say_toc]; try reflexivity.
  specialize (IH (fun n I => P n (or_intror I))). pose proof (P n (or_introl eq_refl)) as Pn.
  destruct (joined_facts [n] (Forall_cons _ Pn (Forall_nil _))) as (A & D & E & Z & _). cbn [joined] in *. cbv zeta.
  assert (C : components (t_push dir n) = components dir ++ [Normal n]) by (rewrite push_ok by assumption; f_equal; exact (joined_components [n] (Forall_cons _ Pn (Forall_nil _)))).
  unfold t_extension. rewrite last_file_name, C. unfold file_name. rewrite rev_app_distr. cbn [rev app].
  destruct (extension n) as [e|]; [|exact IH]. destruct (name_eqb e onetoc2); [|exact IH]. cbn [malike]. split; [exact C|]. apply (push_names dir [n]); [discriminate|exact (Forall_cons _ Pn (Forall_nil _))].
Qed.
Lemma say_notebook_ok f h fuel T F : takes_apart T F -> forall depth t, plain t -> malike eq (m_notebook f h depth fuel T t) (say_notebook f h depth fuel F (components t)).
Proof.
  intro TA. induction depth as [|d IH]; intros t P; cbn [m_notebook say_notebook]; [exact I|].
  rewrite (ta_read _ _ TA t P). eapply malike_bind; [apply malike_or|]. intros data ? <-. eapply malike_bind; [apply malike_beneath|]. intros st ? <-. destruct (_ =? _)%N; [|reflexivity].
  destruct (parent_ok t) as (PA & PP). rewrite <- PA. destruct (t_parent t) as [base|]; cbn [option_map or_tell or_say mbind pbind]; [|reflexivity]. specialize (PP base eq_refl).
  eapply malike_bind; [apply malike_beneath|]. intros [names color] ? <-.
  eapply malike_bind; [apply (malike_map stands); intro e; exact (say_resolve_ok f T F base e TA PP)|]. intros ts ps M. cbv zeta.
  eapply malike_bind; [|intros es ? <-; reflexivity].
  eapply malike_map2; [|apply filter_stands; [|apply filter_stands; [|exact M]]].
  - intros u U. cbn beta. rewrite (ta_is_file _ _ TA u U). destruct (fs_is_file F (components u)).
    + eapply malike_bind; [exact (say_section_ok h fuel T F u TA U)|]. now intros s ? <-.
    + rewrite last_file_name. eapply malike_bind; [apply malike_or|]. intros dn ? <-.
      rewrite <- (ta_read_dir _ _ TA u U). destruct (tfs_read_dir T u) as [files|] eqn:RD; cbn [or_tell or_say mbind pbind]; [|reflexivity].
      eapply malike_bind; [exact (say_toc_ok u files (fun n I => ta_names _ _ TA u files n RD I))|]. intros v n (V1 & V2).
      eapply malike_bind; [rewrite <- V1; exact (IH v V2)|]. now intros g ? <-.
  - intros u U. now rewrite last_recycle.
  - intros u U. exact (ta_exists _ _ TA u U).
Qed.
Lemma say_buffer_ok h fuel d n : proper_name n -> malike eq (m_section_buffer h fuel d n) (say_section_buffer h fuel d n).
Proof.
  intro P. unfold m_section_buffer, say_section_buffer. eapply malike_bind; [apply malike_beneath|]. intros st ? <-. destruct (_ =? _)%N; [apply malike_beneath|]. cbn [malike in_components].
  f_equal. exact (joined_components [n] (Forall_cons _ P (Forall_nil _))).
Qed.

(** ** What holds of every report *)
Definition every {A} (P : told -> Prop) (m : mres A) : Prop := forall r, m = MSaid r -> P r.
Lemma every_bind {A B} P (m : mres A) (f : A -> mres B) : every P m -> (forall a, m = MGot a -> every P (f a)) -> every P (mbind m f).
Proof. destruct m as [a|r| |]; cbn [mbind]; intros H G; [exact (G a eq_refl)| | |]; intros x E; [|discriminate E|discriminate E]. injection E as <-. now apply H. Qed.
Lemma every_got {A} P (a : A) : every P (MGot a).
Proof. intros r E. discriminate E. Qed.
Lemma every_said {A} (P : told -> Prop) r : P r -> every P (@MSaid A r).
Proof. intros H r' E. now injection E as <-. Qed.
Lemma every_or {A} (P : told -> Prop) r (o : option A) : P r -> every P (or_tell r o).
Proof. intro H. destruct o; [apply every_got|now apply every_said]. Qed.
Lemma every_beneath {A} (P : told -> Prop) (m : res A) : (forall e, m = Err e -> P (TOther e)) -> every P (beneath m).
Proof. intros H r E. destruct m; try discriminate E. injection E as <-. now apply H. Qed.
Lemma every_map {A B} P (f : A -> mres B) l : (forall a, In a l -> every P (f a)) -> every P (mmap f l).
Proof.
  induction l as [|a l IH]; intro H; cbn [mmap]; [apply every_got|]. apply every_bind; [apply H; now left|]. intros b _.
  apply every_bind; [apply IH; intros; apply H; now right|]. intros; apply every_got.
Qed.
Lemma every_weaken {A} (P Q : told -> Prop) (m : mres A) : (forall r, P r -> Q r) -> every P m -> every Q m.
Proof. intros H G r E. exact (H r (G r E)). Qed.
Lemma mmap_in {A B} (f : A -> mres B) l bs b : mmap f l = MGot bs -> In b bs -> exists a, In a l /\ f a = MGot b.
Proof.
  revert bs. induction l as [|a l IH]; cbn [mmap]; intros bs E I; [injection E as <-; contradiction I|].
  destruct (f a) as [x| | |] eqn:Fa; try discriminate E. cbn [mbind] in E. destruct (mmap f l) as [xs| | |]; try discriminate E. injection E as <-.
  destruct I as [<-|I]; [exists a; split; [now left|exact Fa]|]. destruct (IH xs eq_refl I) as (c & Ic & Ec). exists c. split; [now right|exact Ec].
Qed.

(** Kinds *)
Lemma proper_resolve f T base e : every (fun r => exists m, r = TInvalid m) (m_resolve f T base e).
Proof.
  unfold m_resolve. destruct (is_absolute e); [apply every_said; eauto|]. apply every_bind.
  - generalize (@nil N) as buf. induction (components e) as [|c cs IH]; intro buf; cbn [m_sanitize]; [apply every_got|]. destruct c; try (apply every_said; eauto); [apply IH|].
    destruct (name_eqb _ _); [apply IH|apply every_said; eauto].
  - intros [|x s] _; [apply every_said; eauto|]. cbv zeta. destruct (tfs_exists _ _); [|apply every_got]. apply every_bind; [apply every_or; eauto|]. intros b _.
    apply every_bind; [apply every_or; eauto|]. intros c _. destruct (starts_with _ _); [apply every_got|apply every_said; eauto].
Qed.
Lemma elsewhere_container e : In e container_kinds -> from_elsewhere e.
Proof. intro H. right. apply in_app_iff. now left. Qed.
Lemma elsewhere_document e : In e document_kinds -> from_elsewhere e.
Proof. intro H. right. apply in_app_iff. right. apply in_app_iff. now left. Qed.
Lemma elsewhere_toc e : In e toc_kinds -> from_elsewhere e.
Proof. intro H. right. apply in_app_iff. right. apply in_app_iff. now right. Qed.
Lemma proper_section h fuel T t : every proper_report (m_section h fuel T t).
Proof.
  unfold m_section. apply every_bind; [apply every_or; now left|]. intros d _. apply every_bind; [apply every_beneath; intros e E; apply elsewhere_container; exact (open_store_kinds h fuel d e E)|].
  intros st _. destruct (_ =? _)%N; [|apply every_said; exact I]. apply every_bind; [apply every_or; exact I|]. intros n _. apply every_beneath. intros e E. apply elsewhere_document. exact (section_kinds _ _ _ _ E).
Qed.
Lemma proper_buffer h fuel d n : every proper_report (m_section_buffer h fuel d n).
Proof.
  unfold m_section_buffer. apply every_bind; [apply every_beneath; intros e E; apply elsewhere_container; exact (open_store_kinds h fuel d e E)|].
  intros st _. destruct (_ =? _)%N; [|apply every_said; exact I]. apply every_beneath. intros e E. apply elsewhere_document. exact (section_kinds _ _ _ _ E).
Qed.
Lemma proper_toc dir l : every proper_report (m_toc dir l).
Proof.
  induction l as [|[n|] l IH]; cbn [m_toc]; [apply every_said; exact I| |apply every_said; now left]. cbv zeta. destruct (t_extension _) as [e|]; [|exact IH]. destruct (name_eqb _ _); [apply every_got|exact IH].
Qed.
Lemma proper_notebook f h fuel T : forall depth t, every proper_report (m_notebook f h depth fuel T t).
Proof.
  induction depth as [|d IH]; intro t; cbn [m_notebook]; [intros r E; discriminate E|].
  apply every_bind; [apply every_or; now left|]. intros data _. apply every_bind; [apply every_beneath; intros e E; apply elsewhere_container; exact (open_store_kinds h fuel data e E)|].
  intros st _. destruct (_ =? _)%N; [|apply every_said; exact I]. apply every_bind; [apply every_or; exact I|]. intros base _.
  apply every_bind; [apply every_beneath; intros e E; apply elsewhere_toc; exact (parse_toc_kinds _ _ e E)|]. intros [names color] _.
  apply every_bind; [apply every_map; intros e _; eapply every_weaken; [|apply proper_resolve]; intros r (m & ->); exact I|]. intros ps _. cbv zeta.
  apply every_bind; [|intros; apply every_got]. apply every_map. intros p _. destruct (tfs_is_file T p).
  - apply every_bind; [apply proper_section|intros; apply every_got].
  - apply every_bind; [apply every_or; exact I|]. intros dn _. apply every_bind; [apply every_or; now left|]. intros fl _. apply every_bind; [apply proper_toc|]. intros tc _.
    apply every_bind; [apply IH|intros; apply every_got].
Qed.

(** ** Where the named files are *)
Lemma last_piece_sep p q : ~ In slash p -> last_piece (p ++ slash :: q) = (p, q).
Proof.
  induction p as [|c p IH]; intro N; cbn [app last_piece]; [now rewrite N.eqb_refl|]. destruct (N.eqb_spec c slash) as [->|_]; [elim N; now left|].
  rewrite IH; [reflexivity|]. intro I. apply N. now right.
Qed.
Lemma last_piece_end p : ~ In slash p -> last_piece p = (p, []).
Proof.
  induction p as [|c p IH]; intro N; cbn [last_piece]; [reflexivity|]. destruct (N.eqb_spec c slash) as [->|_]; [elim N; now left|].
  rewrite IH; [reflexivity|]. intro I. apply N. now right.
Qed.
Lemma proper_piece' n : proper_name n -> piece n = [Normal n].
Proof. intro P. rewrite <- (pieces_whole n) by apply P. now apply proper_piece. Qed.
(** A text that ends in a proper name. *)
Definition ends_proper (p : text) : Prop := exists u w, p = u ++ w /\ proper_name w /\ (u = [] \/ exists s, u = s ++ [slash]).
Lemma last_piece_proper u w : proper_name w -> (u = [] \/ exists s, u = s ++ [slash]) -> exists q, last_piece (rev (u ++ w)) = (rev w, q).
Proof.
  intros (W & _) U. rewrite rev_app_distr. assert (W' : ~ In slash (rev w)) by now rewrite <- in_rev.
  destruct U as [->|(s & ->)]; [cbn [rev]; rewrite app_nil_r; eexists; now apply last_piece_end|]. rewrite rev_app_distr. cbn [rev app]. eexists. now apply last_piece_sep.
Qed.
Lemma trim_proper u w : proper_name w -> (u = [] \/ exists s, u = s ++ [slash]) -> trim_right (u ++ w) = u ++ w.
Proof.
  intros P U. unfold trim_right. destruct (last_piece_proper u w P U) as (q & E). destruct (length (u ++ w)) as [|n] eqn:L.
  { destruct P as (_ & P & _). destruct u, w; try discriminate L. now elim P. }
  destruct (rev (u ++ w)) as [|c r] eqn:R; [apply (f_equal (@rev N)) in R; rewrite rev_involutive in R; rewrite R in L; discriminate L|].
  cbn [trim_fuel]. rewrite E, rev_involutive, (proper_piece' w P), <- R. apply rev_involutive.
Qed.
Lemma before_body_sep p s : p <> [] -> before_body (p ++ slash :: s) = before_body p.
Proof. intro NE. unfold before_body. destruct p as [|c [|d p]]; [now elim NE| |reflexivity]. cbn [app is_absolute cur_dir]. now rewrite (N.eqb_refl slash), andb_true_r. Qed.
Lemma before_body_proper p u w : p = u ++ w -> proper_name w -> (u = [] \/ exists s, u = s ++ [slash]) ->
  before_body p <= length u /\ (skipn (before_body p) u = [] \/ exists s, skipn (before_body p) u = s ++ [slash]).
Proof.
  intros -> P U. destruct U as [->|(s & ->)].
  - destruct (proper_start w [] P) as (A & C). rewrite app_nil_r in *. specialize (C (or_introl eq_refl)). cbn [app]. unfold before_body. rewrite A, C. split; [reflexivity|now left].
  - assert (L : before_body ((s ++ [slash]) ++ w) <= 1) by (unfold before_body; destruct (is_absolute ((s ++ [slash]) ++ w)), (cur_dir ((s ++ [slash]) ++ w)); auto). rewrite app_length. cbn [length]. split; [lia|].
    destruct (before_body ((s ++ [slash]) ++ w)) as [|[|k]]; [right; now exists s| |lia]. destruct s as [|c s]; [now left|right; now exists s].
Qed.
Lemma parent_push p n : ends_proper p -> proper_name n -> t_parent (t_push p n) = Some p.
Proof.
  intros (u & w & E & W & U) N. pose proof W as (W1 & W2 & _). pose proof (before_body_proper p u w E W U) as (L & K).
  assert (NE : p <> []) by (subst p; destruct u, w; try discriminate; now elim W2).
  assert (PU : t_push p n = p ++ slash :: n).
  { unfold t_push. destruct (proper_start n [] N) as (A & _). rewrite app_nil_r in A. rewrite A. subst p. rewrite rev_app_distr. destruct (rev w) as [|c r] eqn:R; [apply (f_equal (@rev _)) in R; rewrite rev_involutive in R; now elim W2|].
    cbn [app]. destruct (N.eqb_spec c slash) as [->|_]; [|reflexivity]. elim W1. rewrite in_rev, R. now left. }
  rewrite PU. unfold t_parent. rewrite (before_body_sep p n NE). set (k := before_body p) in *.
  assert (LP : k <= length p) by (subst p; rewrite app_length; lia).
  rewrite skipn_app. replace (k - length p) with 0 by lia. cbn [skipn]. unfold body_back.
  assert (B : last_piece (rev (skipn k p ++ slash :: n)) = (rev n, rev (skipn k p))).
  { rewrite rev_app_distr. cbn [rev]. rewrite <- app_assoc. cbn [app]. apply last_piece_sep. rewrite <- in_rev. apply N. }
  destruct (length (skipn k p ++ slash :: n)) as [|m] eqn:M; [rewrite app_length in M; cbn in M; lia|].
  destruct (rev (skipn k p ++ slash :: n)) as [|c r] eqn:R; [apply (f_equal (@length _)) in R; rewrite rev_length, M in R; discriminate R|].
  cbn [back_fuel]. rewrite B, rev_involutive, (proper_piece' n N), rev_involutive.
  assert (S1 : skipn k p = skipn k u ++ w) by (subst p; rewrite skipn_app; now replace (k - length u) with 0 by lia).
  rewrite S1, (trim_proper _ _ W K), <- S1, firstn_app. replace (k - length p) with 0 by lia. cbn [firstn]. rewrite app_nil_r. f_equal. apply firstn_skipn.
Qed.
Lemma joined_app l m : l <> [] -> m <> [] -> joined (l ++ m) = joined l ++ slash :: joined m.
Proof.
  intros L M. induction l as [|n l IH]; [now elim L|]. destruct l as [|n' l]; [cbn [app]; now rewrite joined_cons|].
  cbn [app]. rewrite (joined_cons n (n' :: l)) by discriminate. rewrite (joined_cons n (n' :: l ++ m)) by discriminate. change (n' :: l ++ m) with ((n' :: l) ++ m). rewrite IH by discriminate. now rewrite <- app_assoc.
Qed.
Lemma below_ends base l t : l <> [] -> Forall proper_name l -> below base l t -> ends_proper t.
Proof.
  intros NE F (sep & -> & S). destruct (exists_last NE) as (m & n & ->). apply Forall_app in F as (Fm & Fn). inversion_clear Fn as [|? ? Pn _].
  destruct m as [|x m].
  - exists (base ++ sep), n. split; [now rewrite <- app_assoc|]. split; [exact Pn|].
    destruct S as [(-> & [->|(s & ->)])|(-> & _ & _)]; [now left|right; exists s; now rewrite app_nil_r|right; now exists base].
  - rewrite joined_snoc by discriminate. exists (base ++ sep ++ joined (x :: m) ++ [slash]), n. split; [now rewrite <- !app_assoc|]. split; [exact Pn|]. right. exists (base ++ sep ++ joined (x :: m)). now rewrite <- !app_assoc.
Qed.
Lemma ends_no_slash p : ends_proper p -> p <> [] /\ forall s, p <> s ++ [slash].
Proof.
  intros (u & w & -> & W & _). split; [destruct u, w; try discriminate; now elim (proj1 (proj2 W))|]. intros s E.
  destruct (exists_last (proj1 (proj2 W))) as (w' & c & ->). rewrite app_assoc in E. apply app_inj_tail in E as (_ & ->). apply (proj1 W). apply in_app_iff. right. now left.
Qed.
Lemma below_trans base l p m t : l <> [] -> Forall proper_name l -> m <> [] -> below base l p -> below p m t -> below base (l ++ m) t.
Proof.
  intros NE F NM B B2. pose proof (ends_no_slash p (below_ends base l p NE F B)) as (P1 & P2). destruct B as (sep & E & S). destruct B2 as (sep2 & -> & S2).
  destruct S2 as [(_ & [->|(s & ->)])|(-> & _ & _)]; [now elim P1|now elim (P2 s)|]. exists sep. split; [|exact S]. rewrite E, joined_app by assumption. now rewrite <- !app_assoc.
Qed.
Lemma toc_below dir l t : (forall n, In (Some n) l -> proper_name n) -> m_toc dir l = MGot t -> exists n, proper_name n /\ t = t_push dir n.
Proof.
  induction l as [|[n|] l IH]; intro P; cbn [m_toc]; try discriminate. specialize (IH (fun n I => P n (or_intror I))). cbv zeta.
  destruct (t_extension _) as [e|]; [|exact IH]. destruct (name_eqb _ _); [|exact IH]. intro E. injection E as <-. exists n. split; [apply P; now left|reflexivity].
Qed.
Definition placed (t : text) (r : told) : Prop := forall f, named r = Some f -> inside t f.
Lemma toc_placed t dir l : inside t dir -> every (placed t) (m_toc dir l).
Proof.
  intro D. induction l as [|[n|] l IH]; cbn [m_toc].
  - apply every_said. intros f E. now injection E as <-.
  - cbv zeta. destruct (t_extension _) as [e|]; [|exact IH]. destruct (name_eqb _ _); [apply every_got|exact IH].
  - apply every_said. intros f E. discriminate E.
Qed.
Lemma section_named h fuel T t : every (fun r => forall f, named r = Some f -> f = t) (m_section h fuel T t).
Proof.
  unfold m_section. apply every_bind; [apply every_or; discriminate|]. intros d _. apply every_bind; [apply every_beneath; intros e _ f E; discriminate E|]. intros st _.
  destruct (_ =? _)%N; [|apply every_said; intros f E; now injection E as <-]. apply every_bind; [apply every_or; discriminate|]. intros n _. apply every_beneath. intros e _ f E; discriminate E.
Qed.
Lemma buffer_named h fuel d n : every (fun r => forall f, named r = Some f -> f = n) (m_section_buffer h fuel d n).
Proof.
  unfold m_section_buffer. apply every_bind; [apply every_beneath; intros e _ f E; discriminate E|]. intros st _.
  destruct (_ =? _)%N; [|apply every_said; intros f E; now injection E as <-]. apply every_beneath. intros e _ f E; discriminate E.
Qed.
Lemma notebook_named f h fuel T : proper_listings T -> forall depth t,
  every (fun r => r = TNotAToc t \/ placed t r) (m_notebook f h depth fuel T t).
Proof.
  intro PL. induction depth as [|d IH]; intro t; cbn [m_notebook]; [intros r E; discriminate E|].
  apply every_bind; [apply every_or; right; discriminate|]. intros data _. apply every_bind; [apply every_beneath; intros e _; right; intros x E; discriminate E|]. intros st _.
  destruct (_ =? _)%N; [|apply every_said; now left]. apply every_bind; [apply every_or; right; discriminate|]. intros base PB.
  assert (TP : t_parent t = Some base) by (destruct (t_parent t); [now injection PB as <-|discriminate PB]).
  apply every_bind; [apply every_beneath; intros e _; right; intros x E; discriminate E|]. intros [names color] _.
  apply every_bind; [apply every_map; intros e _; eapply every_weaken; [|apply proper_resolve]; intros r (m & ->); right; discriminate|]. intros ps M. cbv zeta.
  apply every_bind; [|intros; apply every_got]. apply every_map. intros p I. apply filter_In in I as (I & _). apply filter_In in I as (I & _).
  destruct (mmap_in _ _ _ _ M I) as (e & _ & E). apply bare_got in E. rewrite bare_resolve in E. destruct (resolve_names _ _ _ _ _ E) as (l & NE & Fl & _ & B & _).
  assert (IP : inside t p) by (exists base, l; auto). destruct (tfs_is_file T p).
  - apply every_bind; [|intros; apply every_got]. eapply every_weaken; [|apply section_named]. intros r H. right. intros x X. now rewrite (H x X).
  - apply every_bind; [apply every_or; right; discriminate|]. intros dn _. destruct (tfs_read_dir T p) as [fl|] eqn:RD; cbn [or_tell mbind]; [|apply every_said; right; discriminate].
    apply every_bind; [eapply every_weaken; [|exact (toc_placed t p fl IP)]; now right|]. intros tc TC.
    destruct (toc_below p fl tc (fun n J => PL p fl n RD J) TC) as (n & Pn & ->). apply every_bind; [|intros; apply every_got].
    assert (Fn : Forall proper_name [n]) by (constructor; auto).
    eapply every_weaken; [|apply IH]. intros r [->|H]; right.
    + intros x X. injection X as <-. exists base, (l ++ [n]). split; [exact TP|]. split; [destruct l; discriminate|]. split; [apply Forall_app; auto|].
      apply (below_trans base l p [n]); try assumption; [discriminate|]. exact (push_below p [n] Fn).
    + intros x X. destruct (H x X) as (b2 & m & Q1 & Q2 & Q3 & Q4). rewrite (parent_push p n (below_ends base l p NE Fl B) Pn) in Q1. injection Q1 as <-.
      exists base, (l ++ m). split; [exact TP|]. split; [destruct l; [exact Q2|discriminate]|]. split; [apply Forall_app; auto|]. now apply (below_trans base l p m).
Qed.

(** ** The text determines the error *)
Lemma shown_kind e e' d d' : shown e d = shown e' d' -> e = e'.
Proof. destruct e, e'; intro H; try reflexivity; discriminate H. Qed.
Lemma shown_contents e d d' : e <> UnexpectedEof -> shown e d = shown e d' -> d = d'.
Proof. intros N H. destruct e; try (now elim N); exact (app_inv_head _ _ _ H). Qed.
Lemma problem_same d d' m m' : problem_text d m = problem_text d' m' -> m = m'.
Proof. destruct m, m'; intro H; try reflexivity; try discriminate H. f_equal. exact (app_inv_head _ _ _ H). Qed.
Lemma display_same d d' r r' : proper_report r -> proper_report r' -> display d r = display d' r' -> r = r'.
Proof.
  intros P P' H. assert (K : told_kind r = told_kind r') by (destruct r, r'; cbn [display told_kind] in *; exact (shown_kind _ _ _ _ H)).
  assert (Z : forall e, from_elsewhere e -> e <> NotATocFile /\ e <> NotASectionFile /\ e <> TocFileMissing /\ e <> InvalidPath).
  { intros e I. repeat split; intros ->; cbn in I; intuition discriminate. }
  destruct r as [f|f|f|m|e], r' as [f'|f'|f'|m'|e']; cbn [told_kind] in K; try discriminate K; cbn [display] in H; cbn [proper_report] in P, P';
    try (f_equal; apply shown_contents in H; [exact H|discriminate]); try (exfalso; subst; destruct (Z _ P) as (? & ? & ? & ?); congruence); try (exfalso; subst; destruct (Z _ P') as (? & ? & ? & ?); congruence).
  - f_equal. apply shown_contents in H; [|discriminate]. exact (problem_same _ _ _ _ H).
  - now subst.
Qed.
