(** For every valid notebook, a directory tree that is read as it. *)
From Coq Require Import Lia ZifyBool ZifyNat ZifyN.
From Verif Require Import Base Codec SpecCodec Package PropSet Store Shapes Props Nodes Doc Notebook SpecNodes SpecDoc SpecNotebook SpecValid SpecShelf
  NodesProofs DocProofs4 DocProofs6 NotebookProofs NotebookProofs2 WriteProofs WriteProofs4 WriteProofs5.

Definition abs (ns : list name) : Notebook.path := RootDir :: map Normal ns.
Lemma way_names ns : forall m, way m (map Normal ns) = m ++ ns.
Proof. induction ns as [|n ns IH]; intro m; cbn; [now rewrite app_nil_r|]. rewrite IH, <- app_assoc. reflexivity. Qed.
Lemma way_abs ns : way [] (abs ns) = ns.
Proof. cbn. apply (way_names ns []). Qed.
Lemma node_at_app t ns ms : node_at t (ns ++ ms) = match node_at t ns with Some u => node_at u ms | None => None end.
Proof.
  revert t. induction ns as [|n ns IH]; intro t; [reflexivity|]. cbn. destruct t as [d|es]; [reflexivity|].
  destruct (find _ es) as [e|]; [apply IH|reflexivity].
Qed.
Lemma at_exists t ns : fs_exists (fs_of t) (abs ns) = match node_at t ns with Some _ => true | None => false end.
Proof. unfold fs_of. cbn [fs_exists abs]. fold (abs ns). now rewrite way_abs. Qed.
Lemma at_is_file t ns : fs_is_file (fs_of t) (abs ns) = match node_at t ns with Some (FileNode _) => true | _ => false end.
Proof. unfold fs_of. cbn [fs_is_file abs]. fold (abs ns). now rewrite way_abs. Qed.
Lemma at_canonicalize t ns : fs_canonicalize (fs_of t) (abs ns) = match node_at t ns with Some _ => Some (abs ns) | _ => None end.
Proof. unfold fs_of. cbn [fs_canonicalize abs]. fold (abs ns). now rewrite way_abs. Qed.
Lemma at_read t ns : fs_read (fs_of t) (abs ns) = match node_at t ns with Some (FileNode d) => Some d | _ => None end.
Proof. unfold fs_of. cbn [fs_read abs]. fold (abs ns). now rewrite way_abs. Qed.
Lemma at_read_dir t ns : fs_read_dir (fs_of t) (abs ns) = match node_at t ns with Some (DirNode es) => Some (map (fun e => Some (fst e)) es) | _ => None end.
Proof. unfold fs_of. cbn [fs_read_dir abs]. fold (abs ns). now rewrite way_abs. Qed.

Lemma find_name {A} (es : list (name * A)) n x : NoDup (map fst es) -> In (n, x) es -> find (fun e => name_eqb n (fst e)) es = Some (n, x).
Proof.
  induction es as [|(m & y) es IH]; intros Nd I; [contradiction|]. cbn [map fst] in Nd. inversion Nd as [|? ? N1 N2]; subst. cbn [find fst].
  destruct I as [E|I].
  - injection E as <- <-. now rewrite (proj2 (name_eqb_eq m m) eq_refl).
  - destruct (name_eqb n m) eqn:E; [|now apply IH]. apply name_eqb_eq in E. subst m. exfalso. apply N1. change n with (fst (n, x)). now apply in_map.
Qed.
Lemma node_at_child es n x ns : NoDup (map fst es) -> In (n, x) es -> node_at (DirNode es) (n :: ns) = node_at x ns.
Proof. intros Nd I. cbn [node_at]. now rewrite (find_name es n x Nd I). Qed.
Lemma node_ok_at t : node_ok t -> forall ns u, node_at t ns = Some u -> node_ok u.
Proof.
  intros H ns. revert t H. induction ns as [|n ns IH]; intros t H u E; [injection E as <-; exact H|]. cbn [node_at] in E. destruct t as [d|es]; [discriminate E|].
  destruct (find _ es) as [e|] eqn:F; [|discriminate E]. apply find_some in F as (F & _). destruct H as (_ & H). rewrite every_in in H.
  apply (IH (snd e)); [now apply (H e)|exact E].
Qed.
Lemma tree_bytes t : node_ok t -> holds_bytes (fs_of t).
Proof.
  intros H p d E. unfold fs_of in E. cbn [fs_read] in E. destruct p as [|c p]; [discriminate E|]. destruct (node_at t _) as [[d'|es]|] eqn:F; try discriminate E.
  injection E as <-. exact (node_ok_at t H _ _ F).
Qed.

Lemma nodup_front {A} (l m : list A) : NoDup (l ++ m) -> NoDup l.
Proof. induction l as [|a l IH]; intro H; [constructor|]. inversion H as [|? ? N1 N2]; subst. constructor; [intro I; apply N1, in_or_app; now left|now apply IH]. Qed.

(** ** Entries *)
Section Shelf.
  Context (sanitise : name -> name).
  Definition good_name (n : name) : Prop := folder_name sanitise n /\ short (length n).
  Definition placed (e : section_entry) : Prop := exists nd sfx,
    node_ok nd /\ (sfx = [] \/ exists n, sfx = [n] /\ good_name n) /\ node_at nd sfx <> None /\
    forall root P x, node_at root (P ++ [x]) = Some nd -> forall h, entry_at sanitise h (fs_of root) (abs ((P ++ [x]) ++ sfx)) e.
  Definition line (fs : name * list name) : name := join (fst fs :: snd fs).
  Lemma good_ok n : good_name n -> file_name_ok n.
  Proof. intros ((A & B & C & D & E & _) & _). exact (conj A (conj B (conj C (conj D E)))). Qed.

  Lemma section_placed s : section_ok s -> N.of_nat (section_size s) < 2 ^ 21 -> placed (EnSection s).
  Proof.
    intros V L. destruct (section_written s V L) as (d & B & H). exists (FileNode d), []. split; [exact B|]. split; [now left|]. split; [discriminate|].
    intros root P x E h. rewrite app_nil_r. apply ea_section; [now rewrite at_is_file, E|].
    destruct (H h x) as (k & K). specialize (K k (le_n _)). unfold parse_section_buffer in K. apply bind_ok in K as (st & Hs & K).
    destruct (N.eqb (st_schema st) section_schema) eqn:Es; [|discriminate K]. apply N.eqb_eq in Es.
    exists d, st, (abs P), x. split; [now rewrite at_read, E|]. split; [now exists k|]. split; [exact Es|]. split; [unfold ends_in, abs; now rewrite map_app|].
    apply section_iff. now exists k.
  Qed.

  Definition toc_file : name := [116; 46; 111; 110; 101; 116; 111; 99; 50].
  Lemma toc_file_toc : toc_name toc_file.
  Proof. exists [116]. split; [discriminate|reflexivity]. Qed.
  Lemma toc_file_ok : file_name_ok toc_file.
  Proof.
    assert (S : forall n, In n toc_file -> n <> 47 /\ n < 0xD800 /\ n <> 0) by (intros n I; cbn in I; repeat (destruct I as [<-|I]; [repeat split; discriminate|]); destruct I).
    refine (conj (conj _ _) (conj _ (conj _ (conj _ _)))); try discriminate.
    - apply Forall_forall. intros n I. apply S in I. left. apply I.
    - apply Forall_forall. intros n I. now apply S in I.
    - intro I. now apply S in I.
  Qed.

  (** *** Names in the table of contents *)
  Lemma first_part a b s t : ~ In 47 a -> ~ In 47 b -> (s = [] \/ exists r, s = 47 :: r) -> (t = [] \/ exists r, t = 47 :: r) -> a ++ s = b ++ t -> a = b.
  Proof.
    revert b. induction a as [|x a IH]; intros [|y b] A B S T E; cbn in E.
    - reflexivity.
    - destruct S as [->|(r & ->)]; [discriminate E|]. injection E as <- _. exfalso. apply B. now left.
    - destruct T as [->|(r & ->)]; [discriminate E|]. injection E as -> _. exfalso. apply A. now left.
    - injection E as <- E. f_equal. apply (IH b); [intro; apply A; now right|intro; apply B; now right|exact S|exact T|exact E].
  Qed.
  Lemma line_split f sfx : exists s, line (f, sfx) = f ++ s /\ (s = [] \/ exists r, s = 47 :: r).
  Proof. destruct sfx as [|n sfx]; [exists []; split; [cbn; now rewrite app_nil_r|now left]|]. eexists. split; [reflexivity|]. right. now eexists. Qed.
  Definition spot_ok (fs : name * list name) : Prop := good_name (fst fs) /\ (snd fs = [] \/ exists n, snd fs = [n] /\ good_name n).
  Lemma line_inj a b : spot_ok a -> spot_ok b -> line a = line b -> fst a = fst b.
  Proof.
    destruct a as (f & s), b as (g & t). intros (((_ & _ & _ & _ & A & _) & _) & _) (((_ & _ & _ & _ & B & _) & _) & _) E. cbn [fst] in *.
    destruct (line_split f s) as (u & Eu & U), (line_split g t) as (v & Ev & V). rewrite Eu, Ev in E. exact (first_part _ _ _ _ A B U V E).
  Qed.
  Lemma plain_app a b : plain a -> plain b -> plain (a ++ b).
  Proof. intros (A & B) (C & D). split; apply Forall_app; auto. Qed.
  Lemma unmarked_app a b : unmarked a -> unmarked b -> unmarked (a ++ 47 :: b).
  Proof.
    induction a as [|x a IH]; intros A B p q c E.
    - cbn in E. destruct p as [|y p]; [discriminate E|]. injection E as _ E. exact (B p q c E).
    - destruct p as [|y p].
      + cbn in E. injection E as -> E. destruct a as [|z a]; cbn in E; injection E as <- E; [split; discriminate|]. exact (A [] a _ eq_refl).
      + cbn in E. injection E as <- E. exact (IH (unmarked_tail _ _ A) B p q c E).
  Qed.
  Lemma line_good fs : spot_ok fs -> line_ok (line fs).
  Proof.
    destruct fs as (f & sfx). intros (((P & _ & _ & _ & _ & _ & U & _) & L) & [E|(n & E & (P' & _ & _ & _ & _ & _ & U' & _) & L')]); cbn [fst snd] in *; subst sfx; unfold short in *.
    - cbn. refine (conj P (conj U _)). lia.
    - cbn. refine (conj _ (conj _ _)).
      + apply plain_app; [exact P|]. destruct P' as (A & B). split; constructor; try assumption; [left; reflexivity|discriminate].
      + now apply unmarked_app.
      + rewrite app_length. cbn. lia.
  Qed.
  Lemma picks_all {A} (Q : A -> Prop) l : Forall Q l -> picks Q l l.
  Proof. induction 1; constructor; auto. Qed.
  Lemma line_resolves t P fs nd : spot_ok fs -> node_at t P = Some nd -> resolves sanitise (fs_of t) (abs P) (line fs) (abs (P ++ fst fs :: snd fs)).
  Proof.
    intros S E. exists (fst fs :: snd fs), (fst fs :: snd fs).
    assert (F : Forall (folder_name sanitise) (fst fs :: snd fs)).
    { destruct S as ((A & _) & [->|(n & -> & (B & _))]); (apply Forall_cons; [exact A|]); [apply Forall_nil|apply Forall_cons; [exact B|apply Forall_nil]]. }
    refine (conj (conj _ (conj _ _)) (conj _ (conj _ (conj _ (conj _ (conj _ _)))))).
    - discriminate.
    - eapply Forall_impl; [|exact F]. intros n H. apply H.
    - reflexivity.
    - destruct fs as (f & sfx). destruct (line_split f sfx) as (u & -> & _). destruct S as (((_ & X & _ & _ & Y & _) & _) & _). cbn [fst] in *.
      destruct f as [|x f]; [now elim X|]. cbn. intro H. injection H as ->. apply Y. now left.
    - apply picks_all. eapply Forall_impl; [|exact F]. intros n H. split; apply H.
    - discriminate.
    - eapply Forall_impl; [|exact F]. intros n H. split; apply H.
    - unfold abs. now rewrite map_app.
    - intros X. exists (abs P), (abs (P ++ fst fs :: snd fs)). rewrite !at_canonicalize, E.
      rewrite at_exists in X. destruct (node_at t (P ++ fst fs :: snd fs)); [|discriminate X]. refine (conj eq_refl (conj eq_refl _)).
      exists (map Normal (fst fs :: snd fs)). unfold abs. now rewrite map_app.
  Qed.
  Lemma line_not_recycled P fs : spot_ok fs -> ~ recycled (abs (P ++ fst fs :: snd fs)).
  Proof.
    intros S (base & E). unfold ends_in in E.
    assert (K : exists Q n, P ++ fst fs :: snd fs = Q ++ [n] /\ folder_name sanitise n).
    { destruct S as ((A & _) & [->|(n & -> & (B & _))]); [now exists P, (fst fs)|]. exists (P ++ [fst fs]), n. split; [now rewrite <- app_assoc|exact B]. }
    destruct K as (Q & n & K & F). rewrite K in E. unfold abs in E. rewrite map_app in E. cbn [map] in E. change (RootDir :: map Normal Q ++ [Normal n]) with ((RootDir :: map Normal Q) ++ [Normal n]) in E.
    apply app_inj_tail in E as (_ & E). injection E as ->. now apply F.
  Qed.

  (** *** Directories *)
  Lemma directory es c ns : Forall placed es -> NoDup ns -> (length es <= length ns)%nat -> short (length ns) ->
    Forall (fun n => folder_name sanitise n /\ ~ In 46 n /\ short (length n)) ns -> if_any color_ok c ->
    exists d rest, node_ok (DirNode ((toc_file, FileNode d) :: rest)) /\
      forall root P, node_at root P = Some (DirNode ((toc_file, FileNode d) :: rest)) -> forall h, notebook_at sanitise h (fs_of root) (abs (P ++ [toc_file])) es c.
  Proof.
    intros A Nd L S Gn C.
    (* the first names *)
    set (fs := firstn (length es) ns).
    assert (Lf : length fs = length es) by (unfold fs; apply firstn_length_le, L).
    assert (Nf : NoDup fs) by (unfold fs; rewrite <- (firstn_skipn (length es) ns) in Nd; now apply nodup_front in Nd).
    assert (Gf : Forall (fun n => good_name n /\ ~ In 46 n) fs).
    { apply Forall_forall. intros n I. rewrite Forall_forall in Gn. assert (I' : In n ns) by (rewrite <- (firstn_skipn (length es) ns); apply in_or_app; now left).
      destruct (Gn n I') as (G1 & G2 & G3). exact (conj (conj G1 G3) G2). }
    clearbody fs. clear Gn Nd.
    (* nodes and suffixes *)
    assert (K : exists nodes sfxs, length nodes = length es /\ length sfxs = length es /\
      Forall2 (fun n e => node_ok (fst n) /\ (snd n = [] \/ exists m, snd n = [m] /\ good_name m) /\ node_at (fst n) (snd n) <> None /\
         forall root P x, node_at root (P ++ [x]) = Some (fst n) -> forall h, entry_at sanitise h (fs_of root) (abs ((P ++ [x]) ++ snd n)) e) (combine nodes sfxs) es).
    { clear - A. induction A as [|e es (nd & sfx & H) _ (nodes & sfxs & L1 & L2 & IH)].
      - exists [], []. repeat split. constructor.
      - exists (nd :: nodes), (sfx :: sfxs). cbn [length combine]. refine (conj _ (conj _ _)); [lia|lia|]. constructor; [exact H|exact IH]. }
    destruct K as (nodes & sfxs & L1 & L2 & K).
    set (spots := combine fs sfxs).
    assert (Sp : Forall spot_ok spots).
    { unfold spots. clear - Gf K L1 L2 Lf. revert fs nodes sfxs Gf K L1 L2 Lf. induction es as [|e es IH]; intros [|f fs] [|nd nodes] [|sfx sfxs]; try discriminate; intros Gf K L1 L2 Lf; cbn [combine]; constructor.
      - inversion Gf; subst. inversion K; subst. split; [tauto|]. cbn [fst snd] in *. tauto.
      - inversion Gf; subst. inversion K; subst. cbn [length] in *. eapply IH; eauto; lia. }
    assert (Fs : map fst spots = fs) by (unfold spots; apply combine_firsts; lia).
    set (names := map line spots).
    assert (Nn : NoDup names).
    { unfold names. rewrite <- Fs in Nf. clear - Sp Nf. induction Sp as [|a l Ha Hl IH]; cbn [map]; constructor.
      - intro I. apply in_map_iff in I as (b & Eb & I). cbn [map] in Nf. inversion Nf as [|? ? N1 _]; subst. apply N1. rewrite Forall_forall in Hl.
        rewrite <- (line_inj b a (Hl b I) Ha Eb). now apply in_map.
      - apply IH. cbn [map] in Nf. now inversion Nf. }
    assert (Ls : length spots = length es) by (unfold spots; rewrite combine_length; lia).
    destruct (toc_written names c) as (d & B & W).
    { unfold names. rewrite Forall_map. eapply Forall_impl; [|exact Sp]. exact line_good. }
    { exact Nn. }
    { unfold names. rewrite map_length, Ls. unfold short in S. lia. }
    { exact C. }
    exists d, (combine fs nodes).
    assert (Nt : NoDup (map fst ((toc_file, FileNode d) :: combine fs nodes))).
    { cbn [map fst]. rewrite combine_firsts by lia. constructor; [|exact Nf]. intro I. rewrite Forall_forall in Gf. destruct (Gf _ I) as (_ & D). apply D. cbn. tauto. }
    assert (Kn : Forall node_ok nodes).
    { clear - K L1 L2. revert es sfxs K L1 L2. induction nodes as [|nd nodes IH]; intros [|e es] [|sfx sfxs]; try discriminate; intros K L1 L2; constructor.
      - inversion K; subst. tauto.
      - inversion K; subst. cbn [length] in *. eapply IH; eauto. }
    split.
    { split; [exact Nt|]. rewrite every_in. intros (n & nd) [E|I]; [injection E as <- <-; split; [exact toc_file_ok|exact B]|]. split; cbn [fst snd].
      - apply in_combine_l in I. rewrite Forall_forall in Gf. apply good_ok. now apply Gf.
      - apply in_combine_r in I. rewrite Forall_forall in Kn. now apply Kn. }
    intros root P E h. set (dir := DirNode ((toc_file, FileNode d) :: combine fs nodes)) in *. destruct (W h) as (st & O & Sc & T).
    set (ps := map (fun s => abs (P ++ fst s :: snd s)) spots).
    assert (In_fs : forall f nd, In (f, nd) (combine fs nodes) -> node_at root (P ++ [f]) = Some nd).
    { intros f nd I. rewrite node_at_app, E. unfold dir. rewrite (node_at_child _ f nd) by (try exact Nt; now right). reflexivity. }
    eapply na with (bs := d) (st := st) (base := abs P) (last := Normal toc_file) (names := names) (ps := ps) (shown := ps).
    - rewrite at_read, node_at_app, E. unfold dir. cbn [node_at find fst]. now rewrite (proj2 (name_eqb_eq toc_file toc_file) eq_refl).
    - exact O.
    - exact Sc.
    - unfold ends_in, abs. now rewrite map_app.
    - discriminate.
    - exact T.
    - unfold names, ps. clear - Sp E. induction Sp as [|a l Ha _ IH]; cbn [map]; constructor; [eapply line_resolves; eauto|exact IH].
    - apply picks_all. unfold ps. rewrite Forall_map. apply Forall_forall. intros s I. split; [|apply line_not_recycled; rewrite Forall_forall in Sp; now apply Sp].
      rewrite at_exists. unfold spots in I. clear - In_fs I K L1 L2 Lf. change (fst s :: snd s) with ([fst s] ++ snd s). rewrite app_assoc.
      revert fs nodes sfxs In_fs I K L1 L2 Lf. induction es as [|e es IH]; intros [|f fs] [|nd nodes] [|sfx sfxs]; try discriminate; intros In_fs I K L1 L2 Lf; [destruct I|].
      cbn [combine] in *. inversion K as [|? ? ? ? (K1 & K2 & K3 & _) K']; subst. destruct I as [<-|I].
      + cbn [fst snd] in *. rewrite node_at_app, (In_fs f nd) by (now left). destruct (node_at nd sfx); [reflexivity|now elim K3].
      + cbn [length] in *. apply (IH fs nodes sfxs); auto. intros f' nd' I'. apply In_fs. now right.
    - unfold ps, spots. clear - In_fs K L1 L2 Lf. revert fs nodes sfxs In_fs K L1 L2 Lf.
      induction es as [|e es IH]; intros [|f fs] [|nd nodes] [|sfx sfxs]; try discriminate; intros In_fs K L1 L2 Lf; cbn [combine map] in *; constructor.
      + inversion K as [|? ? ? ? (_ & _ & _ & K1) K']; subst. cbn [fst snd] in *. change (f :: sfx) with ([f] ++ sfx). rewrite app_assoc. apply K1, In_fs. now left.
      + inversion K; subst. cbn [length] in *. apply (IH fs nodes sfxs); auto. intros f' nd' I'. apply In_fs. now right.
  Qed.

  Lemma entry_placed w : stocked sanitise w -> short w -> forall e, entry_ok sanitise e -> entry_small w e -> placed e.
  Proof.
    intros (ns & Nd & Ln & Gn) Sw. fix IH 1. intros [s|n es] V L.
    - now apply section_placed.
    - destruct V as (Vn & V), L as (L1 & L2 & L3).
      assert (Hp : Forall placed es).
      { clear L2. induction es as [|e es IHes]; constructor.
        - apply IH; [exact (proj1 V)|exact (proj1 L3)].
        - apply IHes; [exact (proj2 V)|exact (proj2 L3)]. }
      clear IH. destruct (directory es None ns Hp Nd ltac:(lia) ltac:(now rewrite Ln) Gn I) as (d & rest & Ok_ & H).
      exists (DirNode [(n, DirNode ((toc_file, FileNode d) :: rest))]), [n].
      assert (Gd : good_name n) by exact (conj Vn L1).
      split. { split; [repeat constructor; intros []|]. split; [|exact I]. split; [exact (good_ok n Gd)|exact Ok_]. }
      split. { right. now exists n. }
      assert (E1 : node_at (DirNode [(n, DirNode ((toc_file, FileNode d) :: rest))]) [n] = Some (DirNode ((toc_file, FileNode d) :: rest))).
      { apply (node_at_child _ n _ []); [repeat constructor; intros []|now left]. }
      split. { rewrite E1. discriminate. }
      intros root P x E h.
      assert (E2 : node_at root ((P ++ [x]) ++ [n]) = Some (DirNode ((toc_file, FileNode d) :: rest))) by (now rewrite node_at_app, E).
      eapply ea_group with (base := abs (P ++ [x])) (toc := toc_file) (c := None).
      + now rewrite at_is_file, E2.
      + unfold ends_in, abs. rewrite map_app. reflexivity.
      + rewrite at_read_dir, E2. reflexivity.
      + exists [], (map (fun e => Some (fst e)) rest). refine (conj eq_refl (conj toc_file_toc (Forall_nil _))).
      + specialize (H root _ E2 h). unfold abs in *. rewrite map_app in H. exact H.
  Qed.

  Lemma notebook_placed w nb : stocked sanitise w -> short w -> notebook_ok sanitise nb -> notebook_small w nb ->
    exists t, node_ok t /\ forall h, exists k, forall n, (k <= n)%nat -> parse_notebook sanitise h n n (fs_of t) [RootDir; Normal toc_file] = Ok nb.
  Proof.
    intros St Sw (V & C) (L1 & L2). destruct nb as [es c]. cbn [nb_entries nb_color] in *.
    assert (Hp : Forall placed es).
    { apply Forall_forall. rewrite every_in in V, L2. intros e I. apply (entry_placed w St Sw); auto. }
    destruct St as (ns & Nd & Ln & Gn). destruct (directory es c ns Hp Nd ltac:(lia) ltac:(now rewrite Ln) Gn C) as (d & rest & Ok_ & H).
    exists (DirNode ((toc_file, FileNode d) :: rest)). split; [exact Ok_|]. intro h. apply notebook_complete. exact (H _ [] eq_refl h).
  Qed.
End Shelf.

(** ** Names of seven digits *)
Fixpoint digits (k : nat) (i : N) : name :=
  match k with O => [] | S j => digits j (i / 10) ++ [48 + i mod 10] end.
Lemma digits_length k : forall i, length (digits k i) = k.
Proof. induction k as [|k IH]; intro i; [reflexivity|]. cbn. rewrite app_length, IH. cbn. lia. Qed.
Lemma digits_range k : forall i, Forall (fun c => 48 <= c <= 57) (digits k i).
Proof.
  induction k as [|k IH]; intro i; [constructor|]. cbn. apply Forall_app. split; [apply IH|]. constructor; [|constructor].
  pose proof (N.mod_lt i 10 ltac:(discriminate)). lia.
Qed.
Lemma digits_inj k : forall i j, i < 10 ^ N.of_nat k -> j < 10 ^ N.of_nat k -> digits k i = digits k j -> i = j.
Proof.
  induction k as [|k IH]; intros i j I J E; [cbn in *; lia|]. cbn [digits] in E. apply app_inj_tail in E as (E & M).
  rewrite Nat2N.inj_succ, N.pow_succ_r' in I, J.
  apply IH in E; [|apply N.div_lt_upper_bound; lia|apply N.div_lt_upper_bound; lia].
  rewrite (N.div_mod i 10), (N.div_mod j 10) by discriminate. rewrite E. lia.
Qed.
Lemma digits_stocked sanitise w : (forall n, seven_digits n -> sanitise n = n) -> short w -> stocked sanitise w.
Proof.
  intros H S. exists (map (fun i => digits 7 (N.of_nat i)) (seq 0 w)). refine (conj _ (conj _ _)).
  - assert (X : forall l, NoDup l -> (forall i, In i l -> (i < w)%nat) -> NoDup (map (fun i => digits 7 (N.of_nat i)) l)).
    { induction l as [|i l IH]; intros Nd B; [constructor|]. inversion Nd as [|? ? N1 N2]; subst. cbn [map]. constructor.
      - intro I. apply in_map_iff in I as (j & E & I). apply digits_inj in E.
        + apply Nat2N.inj in E. subst j. contradiction.
        + pose proof (B j (or_intror I)). unfold short in S. change (10 ^ N.of_nat 7) with 10000000. lia.
        + pose proof (B i (or_introl eq_refl)). unfold short in S. change (10 ^ N.of_nat 7) with 10000000. lia.
      - apply IH; [exact N2|]. intros j I. apply B. now right. }
    apply X; [apply seq_NoDup|]. intros i I. apply in_seq in I. lia.
  - now rewrite map_length, seq_length.
  - rewrite Forall_map. apply Forall_forall. intros i _. pose proof (digits_length 7 (N.of_nat i)) as L. pose proof (digits_range 7 (N.of_nat i)) as R.
    set (n := digits 7 (N.of_nat i)) in *. clearbody n. rewrite Forall_forall in R.
    refine (conj (conj _ (conj _ (conj _ (conj _ (conj _ (conj _ (conj _ _))))))) (conj _ _)).
    + split; apply Forall_forall; intros c I; apply R in I; [left|]; lia.
    + intros ->. discriminate L.
    + intros ->. discriminate L.
    + intros ->. discriminate L.
    + intro I. apply R in I. lia.
    + apply H. split; [exact L|now apply Forall_forall].
    + intros a b c ->. assert (I : In 94 (a ++ [94; c] ++ b)) by (apply in_or_app; right; now left). apply R in I. lia.
    + intros ->. discriminate L.
    + intro I. apply R in I. lia.
    + unfold short. rewrite L. reflexivity.
Qed.
Lemma notebook_shelved sanitise w nb : (forall n, seven_digits n -> sanitise n = n) -> short w -> notebook_ok sanitise nb -> notebook_small w nb ->
  exists t p, node_ok t /\ forall h, exists k, forall n, (k <= n)%nat -> parse_notebook sanitise h n n (fs_of t) p = Ok nb.
Proof.
  intros H S V L. destruct (notebook_placed sanitise w nb (digits_stocked sanitise w H S) S V L) as (t & N & E). now exists t, [RootDir; Normal toc_file].
Qed.
