(** Example notebooks for C86: one with a single section, whose file holds anything, and
    the one whose groups are links to itself. *)
From Coq Require Import Lia ZifyBool ZifyNat ZifyN Relations.
From Verif Require Import Base Codec Package PropSet PropIds Store Shapes Props Nodes Doc SpecCodec SpecStore SpecValues SpecNodes
  NodesProofs PropertiesStore SpecDoc SpecNotebook Notebook NotebookProofs NotebookProofs2 NotebookProofs3 SpecCause SpecOpen OpenProofs2 SpecBlame BlameProofs
  SpecFate FateProofs3 SpecVoyage VoyageProofs ExampleFile ExampleSection ExampleNotebook LinkProofs.
Local Open Scope nat_scope.

(** A table of contents that is read: what can be wrong is wrong with what it names. *)
Section ReadToc.
  Variables (sanitise : name -> name) (fs : filesystem) (q base : path) (last : component) (names : list name) (c : option color)
    (bs : list N) (st : store) (f : nat).
  Hypotheses (R : fs_read fs q = Some bs) (O : open_store order_id f bs = Ok st) (Q : st_schema st = 0xE4DBFD38E5C7408BA8A10E7B421E1F5F%N)
    (E : ends_in q base last) (L : last <> RootDir) (T : parse_toc f (st_data_root st) = Ok (names, c)).
  Notation lists := (lists sanitise order_id fs).
  Notation trouble := (trouble sanitise order_id fs).
  Lemma read_holds : holds_store order_id fs q st.
  Proof. exists bs. split; [exact R|]. now exists f. Qed.
  Lemma read_toc_at : toc_at order_id fs q base names.
  Proof. exists st, last, c. split; [exact read_holds|]. split; [exact Q|]. split; [exact E|]. split; [exact L|]. now apply toc_settles in T. Qed.
  Lemma read_lists r : lists q r -> exists n, In n names /\ resolves sanitise fs base n r.
  Proof.
    intros (b & ns & n & T' & I & Rn & _). destruct (toc_at_fun order_id fs q base names b ns read_toc_at T') as (<- & <-). eauto.
  Qed.
  Lemma read_no_circle : ~ toc_circle order_id fs q.
  Proof.
    intros [(bs' & pg & rest & R' & P & X)|(st' & H' & _ & X)].
    - assert (bs' = bs) as -> by congruence. destruct (proj1 (opens_iff order_id bs) (ex_intro _ st (ex_intro _ f O))) as (pg' & rest' & P' & _ & N).
      assert (pg' = pg) as -> by congruence. exact (N X).
    - rewrite (holds_fun order_id fs q st' st H' read_holds) in X. exact (proj2 (toc_clear _ _ _ T) X).
  Qed.
  Lemma read_trouble e : (forall n, In n names -> exists r, resolves sanitise fs base n r) -> trouble q e ->
    exists r, lists q r /\ (fs_is_file fs r = true /\ section_trouble order_id fs r e \/
      fs_is_file fs r = false /\ forall files toc, fs_read_dir fs r = Some files -> ~ first_toc files toc).
  Proof.
    intros A W. assert (Hs := read_holds).
    destruct W as [N|k N|st' H' N|st' H' N|st' k H' _ N|b ns n T' I N|r k Lr F S|r Lr F D|r before after Lr F D B|r files Lr F D B].
    - congruence.
    - contradiction (no_store_not order_id fs q k st N Hs).
    - rewrite (holds_fun order_id fs q st' st H' Hs) in N. contradiction.
    - specialize (N base last E). contradiction.
    - rewrite (holds_fun order_id fs q st' st H' Hs) in N. contradiction (proj1 (toc_clear _ _ _ T) k N).
    - destruct (toc_at_fun order_id fs q base names b ns read_toc_at T') as (<- & <-). destruct (A n I) as (r & K). contradiction (N r K).
    - exists r. split; [exact Lr|]. left. auto.
    - exists r. split; [exact Lr|]. right. split; [exact F|]. intros files toc D'. congruence.
    - exists r. split; [exact Lr|]. right. split; [exact F|]. intros files toc D' T'. assert (files = map Some before ++ None :: after) as -> by congruence.
      apply find_iff in T'. clear -T' B. induction B as [|m before M B IH]; cbn [map app] in T'; [discriminate T'|].
      rewrite find_miss in T' by exact M. exact (IH T').
    - exists r. split; [exact Lr|]. right. split; [exact F|]. intros fl toc D' T'. assert (fl = map Some files) as -> by congruence.
      apply find_iff in T'. clear -T' B. induction B as [|m files M B IH]; cbn [map] in T'; [discriminate T'|].
      rewrite find_miss in T' by exact M. exact (IH T').
  Qed.
End ReadToc.

(** ** One section *)
Definition lone_toc : list N := toc_file [toc_folder_obj 101 [102%N]; toc_entry_obj 102 1 name_one].
Definition lone_path : path := home ++ [Normal name_toc].
Definition lone_section : path := home ++ [Normal name_one].
Definition lone_fs (data : list N) : filesystem :=
  plain_fs [(lone_path, lone_toc); (lone_section, data)] [(home, [name_toc; name_one])].
Definition plainly (n : name) : name := n.

Section Lone.
  Variable data : list N.
  Notation fs := (lone_fs data).
  Notation lists := (lists plainly order_id fs).
  Notation reaches := (reaches plainly order_id fs).
  Lemma lone_reads : exists st c, fs_read fs lone_path = Some lone_toc /\ open_store order_id 3 lone_toc = Ok st /\
    st_schema st = 0xE4DBFD38E5C7408BA8A10E7B421E1F5F%N /\ parse_toc 3 (st_data_root st) = Ok ([name_one], c).
  Proof.
    assert (K : match open_store order_id 3 lone_toc with
                | Ok st => N.eqb (st_schema st) 0xE4DBFD38E5C7408BA8A10E7B421E1F5F%N &&
                  match parse_toc 3 (st_data_root st) with Ok ([x], _) => name_eqb x name_one | _ => false end
                | _ => false end = true) by (vm_compute; reflexivity).
    destruct (open_store order_id 3 lone_toc) as [st| | |]; try discriminate K.
    apply andb_prop in K as (K1 & K2). apply N.eqb_eq in K1. exists st.
    destruct (parse_toc 3 (st_data_root st)) as [(ns, c)| | |]; try discriminate K2.
    destruct ns as [|x [|]]; try discriminate K2. apply name_eqb_eq in K2 as ->. exists c. auto.
  Qed.
  Lemma lone_resolves : resolves plainly fs home name_one lone_section.
  Proof. apply resolve_ok. reflexivity. Qed.
  Lemma lone_lists r : lists lone_path r -> r = lone_section.
  Proof.
    intros H. destruct lone_reads as (st & c & R & O & Q & T).
    destruct (read_lists plainly fs lone_path home (Normal name_toc) _ c _ st 3 R O Q eq_refl ltac:(discriminate) T r H) as (n & [<-|[]] & K).
    exact (resolves_fun plainly fs home name_one r lone_section K lone_resolves).
  Qed.
  Lemma lone_file : fs_is_file fs lone_section = true.
  Proof. reflexivity. Qed.
  Lemma lone_listed : lists lone_path lone_section.
  Proof.
    destruct lone_reads as (st & c & R & O & Q & T). exists home, [name_one], name_one.
    split; [exact (read_toc_at fs lone_path home (Normal name_toc) _ c _ st 3 R O Q eq_refl ltac:(discriminate) T)|].
    split; [now left|]. split; [exact lone_resolves|]. split; [reflexivity|]. intros (b & H). apply app_inj_tail in H as (_ & H). discriminate H.
  Qed.
  Lemma lone_reaches q : reaches lone_path q -> q = lone_path.
  Proof.
    induction 1 as [|q r files toc H IH L F D T]; [reflexivity|]. subst q. rewrite (lone_lists r L), lone_file in F. discriminate F.
  Qed.
  Lemma lone_shallow : not_deeper plainly order_id fs lone_path 1.
  Proof.
    intros q H. inversion H as [|n q' r files toc H' L F D T]; subst. inversion H'; subst.
    rewrite (lone_lists r L), lone_file in F. discriminate F.
  Qed.
  Lemma lone_section_of r : section_of plainly order_id fs lone_path r <-> r = lone_section.
  Proof.
    split.
    - intros (q & H & L & _). apply lone_reaches in H as ->. exact (lone_lists r L).
    - intros ->. exists lone_path. split; [constructor|]. split; [exact lone_listed|exact lone_file].
  Qed.
  Lemma lone_trouble q e : reaches lone_path q -> trouble plainly order_id fs q e -> section_trouble order_id fs lone_section e.
  Proof.
    intros H W. apply lone_reaches in H as ->. destruct lone_reads as (st & c & R & O & Q & T).
    destruct (read_trouble plainly fs lone_path home (Normal name_toc) _ c _ st 3 R O Q eq_refl ltac:(discriminate) T e) as (r & L & K).
    - intros n [<-|[]]. exists lone_section. exact lone_resolves.
    - exact W.
    - rewrite (lone_lists r L) in K. destruct K as [(_ & K)|(F & _)]; [exact K|]. rewrite lone_file in F. discriminate F.
  Qed.
  Lemma lone_troubled e : section_trouble order_id fs lone_section e -> trouble plainly order_id fs lone_path e.
  Proof. intros W. exact (tr_section plainly order_id fs lone_path lone_section e lone_listed lone_file W). Qed.
  Lemma lone_circle : circle_in plainly order_id fs lone_path <-> section_circle order_id fs lone_section.
  Proof.
    split.
    - intros [(q & H & K)|(r & H & K)].
      + apply lone_reaches in H as ->. destruct lone_reads as (st & c & R & O & Q & T).
        contradiction (read_no_circle fs lone_path _ c _ st 3 R O T K).
      + apply lone_section_of in H as ->. exact K.
    - intros K. right. exists lone_section. split; [now apply lone_section_of|exact K].
  Qed.
  (** The section file opens. *)
  Variable st : store.
  Hypotheses (O : opens order_id data st) (Q : st_schema st = 0x1F937CB4B26F445FB9F817E20160E461%N).
  Lemma lone_holds : holds_store order_id fs lone_section st.
  Proof. exists data. split; [reflexivity|exact O]. Qed.
  Lemma lone_section_trouble e : section_trouble order_id fs lone_section e <-> fault st e.
  Proof.
    assert (Hs := lone_holds). split.
    - intros W. destruct W as [N|k N|st' H' N|st' H' N|st' b n k H' _ _ N].
      + discriminate N.
      + contradiction (no_store_not order_id fs _ k st N Hs).
      + rewrite (holds_fun order_id fs _ st' st H' Hs) in N. contradiction.
      + contradiction (N home name_one). reflexivity.
      + now rewrite (holds_fun order_id fs _ st' st H' Hs) in N.
    - intros F. exact (tr_content order_id fs lone_section st home name_one e Hs Q eq_refl F).
  Qed.
  Lemma lone_crash : crash_in plainly order_id fs lone_path <-> crash_at st.
  Proof.
    split.
    - intros (r & st' & H & H' & _ & C). apply lone_section_of in H as ->. now rewrite (holds_fun order_id fs _ st' st H' lone_holds) in C.
    - intros C. exists lone_section, st. split; [now apply lone_section_of|]. split; [exact lone_holds|auto].
  Qed.
  Lemma lone_round : section_circle order_id fs lone_section <-> comes_round st.
  Proof.
    split.
    - intros [(bs & pg & rest & R & P & X)|(st' & H' & _ & X)].
      + assert (bs = data) as -> by (injection R; auto). destruct (proj1 (opens_iff order_id data) (ex_intro _ st O)) as (pg' & rest' & P' & _ & N).
        assert (pg' = pg) as -> by congruence. contradiction.
      + now rewrite (holds_fun order_id fs _ st' st H' lone_holds) in X.
    - intros C. right. exists st. split; [exact lone_holds|auto].
  Qed.
End Lone.

(** ** Groups that are links to the notebook *)
Section Links.
  Notation fs := (link_fs None).
  Notation at_ w := (home ++ map Normal w ++ [Normal name_toc]).
  Notation reaches := (reaches plainly order_id fs).
  Notation lists := (lists plainly order_id fs).
  Lemma link_reads w : links w -> exists st c, fs_read fs (at_ w) = Some link_toc /\ open_store order_id 3 link_toc = Ok st /\
    st_schema st = 0xE4DBFD38E5C7408BA8A10E7B421E1F5F%N /\ ends_in (at_ w) (home ++ map Normal w) (Normal name_toc) /\
    parse_toc 3 (st_data_root st) = Ok ([name_a; name_b], c).
  Proof.
    intros H. destruct link_opens as (st & c & O & Q & T). exists st, c. split; [cbn [fs_read link_fs]; now rewrite follow_toc|].
    split; [exact O|]. split; [exact Q|]. split; [unfold ends_in; now rewrite app_assoc|exact T].
  Qed.
  Lemma link_resolves w n : links w -> n = name_a \/ n = name_b -> resolves plainly fs (home ++ map Normal w) n (home ++ map Normal (w ++ [n])).
  Proof. intros H N. apply resolve_ok. apply resolve_link; auto. Qed.
  Lemma links_snoc w n : links w -> n = name_a \/ n = name_b -> links (w ++ [n]).
  Proof. intros H N. apply Forall_app. split; [exact H|]. constructor; [exact N|constructor]. Qed.
  Lemma link_lists w r : links w -> lists (at_ w) r -> exists n, (n = name_a \/ n = name_b) /\ r = home ++ map Normal (w ++ [n]).
  Proof.
    intros H L. destruct (link_reads w H) as (st & c & R & O & Q & E & T).
    destruct (read_lists plainly fs _ _ _ _ c _ st 3 R O Q E ltac:(discriminate) T r L) as (n & I & K). exists n.
    assert (N : n = name_a \/ n = name_b) by (destruct I as [<-|[<-|[]]]; auto). split; [exact N|].
    exact (resolves_fun plainly fs _ n r _ K (link_resolves w n H N)).
  Qed.
  Lemma link_place w : links w -> follow None (home ++ map Normal w) = Some home.
  Proof. intros H. now apply follow_in. Qed.
  Lemma link_directory w : links w -> fs_is_file fs (home ++ map Normal w) = false /\
    fs_read_dir fs (home ++ map Normal w) = Some [Some name_toc; Some name_a; Some name_b].
  Proof. intros H. cbn [fs_is_file fs_read_dir link_fs]. rewrite link_place by exact H. split; reflexivity. Qed.
  Lemma link_first : first_toc [Some name_toc; Some name_a; Some name_b] name_toc.
  Proof. apply find_iff. reflexivity. Qed.
  Lemma link_listed w n : links w -> n = name_a \/ n = name_b -> lists (at_ w) (home ++ map Normal (w ++ [n])).
  Proof.
    intros H N. destruct (link_reads w H) as (st & c & R & O & Q & E & T). exists (home ++ map Normal w), [name_a; name_b], n.
    split; [exact (read_toc_at fs _ _ _ _ c _ st 3 R O Q E ltac:(discriminate) T)|]. split; [destruct N as [->| ->]; cbn; auto|].
    split; [now apply link_resolves|]. split; [cbn [fs_exists link_fs]; now rewrite link_place by now apply links_snoc|].
    intros Z. apply (proj1 (recycle_iff _)) in Z || apply (proj2 (recycle_iff _)) in Z. rewrite link_not_bin in Z by exact N. discriminate Z.
  Qed.
  Lemma link_reaches q : reaches (at_ []) q -> exists w, links w /\ q = at_ w.
  Proof.
    induction 1 as [|q r files toc H IH L F D T]; [exists []; split; [constructor|reflexivity]|].
    destruct IH as (w & W & ->). destruct (link_lists w r W L) as (n & N & ->). exists (w ++ [n]).
    assert (W' := links_snoc w n W N). split; [exact W'|]. destruct (link_directory _ W') as (_ & D'). assert (files = [Some name_toc; Some name_a; Some name_b]) as -> by congruence.
    assert (toc = name_toc) as -> by exact (first_toc_fun _ toc name_toc T link_first). now rewrite <- app_assoc.
  Qed.
  Lemma link_no_trouble q e : reaches (at_ []) q -> ~ trouble plainly order_id fs q e.
  Proof.
    intros H W. apply link_reaches in H as (w & L & ->). destruct (link_reads w L) as (st & c & R & O & Q & E & T).
    destruct (read_trouble plainly fs _ _ _ _ c _ st 3 R O Q E ltac:(discriminate) T e) as (r & Lr & K).
    - intros n I. exists (home ++ map Normal (w ++ [n])). apply link_resolves; [exact L|]. destruct I as [<-|[<-|[]]]; auto.
    - exact W.
    - destruct (link_lists w r L Lr) as (n & N & ->). destruct (link_directory _ (links_snoc w n L N)) as (F & D).
      destruct K as [(F' & _)|(_ & K)]; [congruence|]. exact (K _ name_toc D link_first).
  Qed.
  Lemma link_no_section r : ~ section_of plainly order_id fs (at_ []) r.
  Proof.
    intros (q & H & L & F). apply link_reaches in H as (w & W & ->). destruct (link_lists w r W L) as (n & N & ->).
    destruct (link_directory _ (links_snoc w n W N)) as (F' & _). congruence.
  Qed.
  Lemma link_bottomless : bottomless plainly order_id fs (at_ []).
  Proof.
    assert (K : forall n, exists w, links w /\ nested plainly order_id fs (at_ []) n (at_ w)).
    { induction n as [|n (w & W & IH)]; [exists []; split; [constructor|constructor]|]. exists (w ++ [name_a]).
      assert (W' := links_snoc w name_a W (or_introl eq_refl)). split; [exact W'|]. destruct (link_directory _ W') as (F & D).
      rewrite app_assoc. exact (ne_group plainly order_id fs _ n _ _ _ _ IH (link_listed w name_a W (or_introl eq_refl)) F D link_first). }
    intros n. destruct (K n) as (w & _ & H). eauto.
  Qed.
End Links.
