(** Sections and notebooks that are read are valid. *)
From Coq Require Import Lia ZifyBool ZifyNat ZifyN Permutation.
From Verif Require Import Base BaseProofs Codec SpecCodec PropSet Store Package Shapes Props Nodes Doc SpecValues SpecNodes SpecDoc DocProofs4
  SpecNotebook Notebook NotebookProofs2 NodesProofs SpecValid SpecShelf RangeProofs RangeProofs2.

Lemma buffer_valid h fuel d file s : bytes_ok d -> plain file -> parse_section_buffer h fuel d file = Ok s -> section_ok s.
Proof.
  intros B P E. unfold parse_section_buffer in E. apply bind_ok in E as (st & Hs & E).
  destruct (_ =? _); [|discriminate]. eapply section_valid; [eapply open_store_fits; eauto|exact P|].
  apply section_settles in E. exact E.
Qed.

(** ** Names in tables of contents *)
(** No "^" before [c]. *)
Definition without (c : N) (s : list N) : Prop := forall a b, s <> a ++ [94; c] ++ b.
Lemma without_nil c : without c [].
Proof. intros a b E. destruct a; discriminate E. Qed.
Lemma without_cons c x s : without c (x :: s) <-> without c s /\ ~ (x = 94 /\ hd_error s = Some c).
Proof.
  split.
  - intro H. split.
    + intros a b E. apply (H (x :: a) b). now rewrite E.
    + intros [-> E]. destruct s as [|y s]; [discriminate|]. injection E as ->. exact (H [] s eq_refl).
  - intros [H N] a b E. destruct a as [|y a].
    + injection E as -> ->. apply N. auto.
    + injection E as -> ->. exact (H a b eq_refl).
Qed.
Lemma unescape_head c by_ s s' : by_ <> c -> unescape c by_ s s' -> hd_error s' = Some c -> hd_error s = Some c.
Proof. intros D H. destruct H; cbn; congruence. Qed.
Lemma unescape_without c by_ s s' : by_ <> 94 -> by_ <> c -> unescape c by_ s s' -> without c s'.
Proof.
  intros N D H. induction H as [|r r' H IH|x r r' Hx H IH]; [apply without_nil| |]; apply without_cons; split; auto.
  - tauto.
  - intros [-> E]. apply Hx. split; [reflexivity|]. eapply unescape_head; eauto.
Qed.
Lemma unescape_keeps c by_ d s s' : by_ <> 94 -> by_ <> d -> unescape c by_ s s' -> without d s -> without d s'.
Proof.
  intros N D H. induction H as [|r r' H IH|x r r' Hx H IH]; intro W; [exact W| |]; apply without_cons in W as [W W'].
  - apply without_cons in W as [W _]. apply without_cons. split; [auto|tauto].
  - apply without_cons. split; [auto|]. intros [-> E]. apply W'. split; [reflexivity|].
    destruct H as [|r r' H|y r r' Hy H]; cbn in *; congruence.
Qed.
Lemma unescape_plain c by_ s s' : scalar by_ -> by_ <> 0 -> unescape c by_ s s' -> plain s -> plain s'.
Proof.
  intros S Z H [P1 P2]. split.
  - induction H as [|r r' H IH|x r r' Hx H IH]; [constructor| |]; inversion P1; inversion P2; subst; constructor; auto.
    + apply IH; [inversion H3; auto|inversion H7; auto].
  - induction H as [|r r' H IH|x r r' Hx H IH]; [constructor| |]; inversion P1; inversion P2; subst; constructor; auto.
    + apply IH; [inversion H3; auto|inversion H7; auto].
Qed.
Definition toc_text (s : list N) : Prop := plain s /\ without 77 s /\ without 74 s.
Lemma escaped_ok : gives escaped_name toc_text.
Proof.
  intros v s F (s0 & s1 & T & U1 & U2). apply (text_val_ok _ _ F) in T.
  refine (conj _ (conj _ _)).
  - eapply unescape_plain; [| |exact U2|]; [left; lia|discriminate|]. eapply unescape_plain; [| |exact U1|exact T]; [left; lia|discriminate].
  - eapply unescape_keeps; [| |exact U2|]; [discriminate|discriminate|]. eapply unescape_without; [| |exact U1]; discriminate.
  - eapply unescape_without; [| |exact U2]; discriminate.
Qed.
Section Toc.
  Context (sp : space) (F : space_fits sp).
  Definition listed (l : list (N * name)) : Prop := Forall (fun e => toc_text (snd e)) l.
  Fixpoint listing_ok id ts (H : listing sp id ts) {struct H} : listed ts.
  Proof.
    destruct H as [id o d k n G D E _|id o d ls G D _ L].
    - constructor; [|constructor]. cbn [snd]. destruct D as (_ & _ & D & _).
      apply (optional_ok _ _ _ _ (F _ _ G) _ escaped_ok) in D. rewrite E in D. exact D.
    - pose proof (every_of _ _ listing_ok _ _ L) as X. clear - X. induction ls as [|l ls IH]; [constructor|]. destruct X as [X1 X2].
      cbn [concat]. unfold listed. apply Forall_app. split; [exact X1|exact (IH X2)].
  Qed.
  Lemma squeezed_incl l r : squeezed l r -> forall n, In n r -> In n l.
  Proof.
    induction 1 as [|n|n l r H IH|n m l r N H IH]; intros x I; auto.
    - right. auto.
    - destruct I as [->|I]; [now left|right; auto].
  Qed.
  Lemma toc_valid names c : toc_is sp names c -> Forall toc_text names /\ if_any color_ok c.
  Proof.
    intros (id & ts & r & _ & L & (P & _) & Q & C). split.
    - apply listing_ok in L. apply Forall_forall. intros n I. apply (squeezed_incl _ _ Q) in I. apply in_map_iff in I as ((k & n') & <- & I).
      apply (Permutation_in _ (Permutation_sym P)) in I. unfold listed in L. rewrite Forall_forall in L. exact (L _ I).
    - apply (found_fits _ F) in C as (o & Ob & d & (_ & _ & _ & _ & D) & ->). exact (optional_ok _ _ _ _ Ob _ argb_ok D).
  Qed.
End Toc.

(** ** Notebooks *)
Lemma without_part c a s b : without c (a ++ s ++ b) -> without c s.
Proof. intros H x y ->. apply (H (a ++ x) (y ++ b)). now rewrite <- !app_assoc. Qed.
Lemma plain_part a s b : plain (a ++ s ++ b) -> plain s.
Proof. intros [H1 H2]. rewrite !Forall_app in *. split; tauto. Qed.
Lemma join_part ws w : In w ws -> exists a b, join ws = a ++ w ++ b.
Proof.
  induction ws as [|v ws IH]; [intros []|]. intros [->|I].
  - destruct ws; [exists [], []; cbn; now rewrite app_nil_r|]. eexists [], _. cbn [join app]. reflexivity.
  - destruct (IH I) as (a & b & E). destruct ws as [|u ws]; [destruct I|].
    exists (v ++ 47 :: a), b. change (join (v :: u :: ws)) with (v ++ 47 :: join (u :: ws)). rewrite E, <- app_assoc. reflexivity.
Qed.
Lemma picks_in {A} (P : A -> Prop) l r : picks P l r -> forall x, In x r -> In x l /\ P x.
Proof.
  induction 1 as [|a l r Pa H IH|a l r Pa H IH]; intros x I; [destruct I| |].
  - destruct I as [->|I]; [split; [now left|exact Pa]|]. destruct (IH _ I). split; [now right|assumption].
  - destruct (IH _ I). split; [now right|assumption].
Qed.
Lemma resolved_name sanitise fs base e p b n : toc_text e -> resolves sanitise fs base e p -> ends_in p b (Normal n) -> ~ recycled p ->
  folder_name sanitise n.
Proof.
  intros (T1 & T2 & T3) (ws & ns & (_ & W & ->) & _ & PK & NE & NS & -> & _) E R. unfold ends_in in E.
  destruct (exists_last NE) as (l & x & ->). rewrite map_app, app_assoc in E. cbn [map] in E. apply app_inj_tail in E as [_ E]. injection E as ->.
  assert (I : In n (l ++ [n])) by (apply in_app_iff; right; now left).
  destruct (picks_in _ _ _ PK _ I) as [Iw [N1 N2]]. rewrite Forall_forall in NS, W. destruct (NS _ I) as [N3 N4].
  destruct (join_part _ _ Iw) as (a & c & J). rewrite J in *. apply plain_part in T1. apply without_part in T2, T3.
  refine (conj T1 (conj N1 (conj N2 (conj N3 (conj (W _ Iw) (conj N4 (conj _ _))))))).
  - intros u v k E. split; intros ->; [exact (T2 _ _ E)|exact (T3 _ _ E)].
  - intros ->. apply R. exists (base ++ map Normal l). unfold ends_in. rewrite map_app, app_assoc. reflexivity.
Qed.

Lemma notebook_at_valid sanitise h fs p es c : holds_bytes fs -> notebook_at sanitise h fs p es c ->
  every (entry_ok sanitise) es /\ if_any color_ok c.
Proof.
  intros HB H.
  refine (notebook_induct sanitise h fs
    (fun q e => (forall b n, ends_in q b (Normal n) -> folder_name sanitise n) -> entry_ok sanitise e)
    (fun p es c => every (entry_ok sanitise) es /\ if_any color_ok c) _ _ _ p es c H); clear p es c H.
  - intros p s _ (bs & st & base & n & R & (fuel & O) & _ & E & S) N. eapply section_valid; [|exact (proj1 (N _ _ E))|exact S].
    eapply open_store_fits; [exact (HB _ _ R)|exact O].
  - intros p base n files toc es c _ E _ _ [Q _] N. exact (conj (N _ _ E) Q).
  - intros p bs st base last names ps shown es c R (fuel & O) _ _ _ T RS PK F.
    pose proof (open_store_fits _ _ _ _ (HB _ _ R) O) as [RF _]. apply (toc_valid _ RF) in T as [T C]. split; [|exact C].
    apply (every_weaken _ (entry_ok sanitise)) with (2 := F). intros q e I H. apply H. intros b n E.
    destruct (picks_in _ _ _ PK _ I) as [Ip [_ NR]].
    assert (X : exists e, toc_text e /\ resolves sanitise fs base e q).
    { clear - RS T Ip. induction RS as [|x y l l' Hx RS IH]; [destruct Ip|]. inversion T; subst. destruct Ip as [->|Ip]; eauto. }
    destruct X as (x & T' & Rx). eapply resolved_name; eauto.
Qed.
Lemma notebook_valid sanitise h depth fuel fs p nb : holds_bytes fs -> parse_notebook sanitise h depth fuel fs p = Ok nb -> notebook_ok sanitise nb.
Proof. intros HB E. apply notebook_sound in E. eapply notebook_at_valid; eauto. Qed.
Lemma section_file_valid h fuel fs p s : holds_bytes fs -> (forall b n, p = b ++ [Normal n] -> plain n) ->
  parse_section_file h fuel fs p = Ok s -> section_ok s.
Proof.
  intros HB N E. apply section_file_settles in E. destruct E as (bs & st & base & n & R & (k & O) & _ & E & S).
  eapply section_valid; [|exact (N _ _ E)|exact S]. eapply open_store_fits; [exact (HB _ _ R)|exact O].
Qed.
