(** Every history of saves has a file. *)
From Coq Require Import Lia ZifyBool ZifyNat ZifyN Permutation.
From Verif Require Import Base BaseProofs Codec SpecCodec CodecProofs CodecRT2 Package SpecPackage PackageRT PackageFacts PropSet PropIds SpecPropSet
  PropSetRT Store SpecStore StoreProofs SpecAccept AcceptProofs SpecSame Notebook ExampleFile WriterProofs SpecFile AuthorProofs SpecHistory HistoryProofs.

(** A save to be written: whether it is the last of its cell, whether another one,
    written next, is before it, and its content. *)
Definition wsave := (bool * bool * pspace)%type.
Definition w_save (k : nat) (more : bool) (s : pspace) : list (exguid * element) :=
  (w_id k 0, ElCell (w_id k 0))
  :: (w_id k 0, ElRevision (w_id k 0) (if more then w_id (S k) 0 else nil_id) (map (fun r => RvRoot (fst r) (snd r)) (snd (fst s)) ++ [RvGroup (w_id k 0)]))
  :: (w_id k 0, ElGroup (map fst (w_entries k 0 (snd s))) (map snd (w_entries k 0 (snd s))))
  :: w_blobs k 0 (snd s).
Fixpoint w_saves (k : nat) (l : list wsave) : list (exguid * element) :=
  match l with [] => [] | (_, more, s) :: r => w_save k more s ++ w_saves (S k) r end.
Fixpoint w_heads (k : nat) (l : list wsave) : list index_item :=
  match l with
  | [] => []
  | (head, _, s) :: r => (if head : bool then [IxCell (fst (fst s)) (w_id k 0) (Serial 0 0)] else []) ++ w_heads (S k) r
  end.
Definition w_history (schema : guid) (hc rc : cellid) (l : list wsave) : list (exguid * element) :=
  (w_id 0 0, ElIndex (w_heads 0 l))
  :: (w_id 0 0, ElManifest schema [(ExGuid 0x1A5A319CC26B41AAB9C59BD8C44E07D4 1, hc); (ExGuid 0x84DEFAB9AAA34A0DA3A8520C77AC7073 2, rc)])
  :: w_saves 0 l.
Fixpoint w_chain (head : bool) (ps : list pspace) : list wsave :=
  match ps with [] => [] | p :: r => (head, match r with [] => false | _ => true end, p) :: w_chain false r end.

(** ** Names *)
Lemma save_names k m s x : In x (w_save k m s) -> exists j, fst x = w_id k j /\ 3 <= kind (snd x).
Proof.
  unfold w_save. intros [<-|[<-|[<-|H]]]; cbn [fst snd kind]; [exists 0%nat; split; [reflexivity|lia]..|].
  apply blobs_names in H as (j & _ & E & K). exists j. split; [exact E|lia].
Qed.
Lemma save_nodup k m s : NoDup (map (fun x => (fst x, kind (snd x))) (w_save k m s)).
Proof. exact (space_nodup k s). Qed.
Lemma saves_names k l x : In x (w_saves k l) -> exists k' j, (k <= k')%nat /\ fst x = w_id k' j /\ 3 <= kind (snd x).
Proof.
  revert k. induction l as [|[[a m] s] l IH]; cbn [w_saves]; intro k; [intros []|]. rewrite in_app_iff. intros [H|H].
  - apply save_names in H as (j & E). exists k, j. split; [lia|exact E].
  - apply IH in H as (k' & j & L & E). exists k', j. split; [lia|exact E].
Qed.
Lemma saves_nodup k l : NoDup (map (fun x => (fst x, kind (snd x))) (w_saves k l)).
Proof.
  revert k. induction l as [|[[a m] s] l IH]; cbn [w_saves]; intro k; [constructor|]. rewrite map_app.
  apply nodup_app; [apply save_nodup|apply IH|]. intros x I I'. apply in_map_iff in I as (y & <- & I).
  apply in_map_iff in I' as (y' & Q & I'). apply save_names in I as (j & E & _). apply saves_names in I' as (k' & j' & L & E' & _).
  rewrite E, E' in Q. injection Q. lia.
Qed.
Lemma history_unambiguous schema hc rc l : unambiguous (w_history schema hc rc l).
Proof.
  assert (S0 : forall x, In x (w_saves 0 l) -> 3 <= kind (snd x)) by (intros x I; apply saves_names in I as (? & ? & _ & _ & K); exact K).
  unfold unambiguous, w_history. refine (conj _ (conj _ _)).
  - cbn [map fst snd kind]. constructor; [|constructor; [|apply saves_nodup]].
    + cbn [In]. intros [H|H]; [discriminate H|]. apply in_map_iff in H as (x & Q & I). apply S0 in I. injection Q. lia.
    + intro H. apply in_map_iff in H as (x & Q & I). apply S0 in I. injection Q. lia.
  - cbn. rewrite filter_nil; [cbn; lia|]. intros x I. apply S0 in I. lia.
  - cbn. rewrite filter_nil; [cbn; lia|]. intros x I. apply S0 in I. lia.
Qed.

(** ** What it holds *)
Lemma saves_app k a b : w_saves k (a ++ b) = w_saves k a ++ w_saves (k + length a) b.
Proof.
  revert k. induction a as [|[[h m] s] a IH]; intro k; cbn [app w_saves length]; [now rewrite Nat.add_0_r|].
  now rewrite IH, <- app_assoc, Nat.add_succ_r.
Qed.
Lemma heads_app k a b : w_heads k (a ++ b) = w_heads k a ++ w_heads (k + length a) b.
Proof.
  revert k. induction a as [|[[h m] s] a IH]; intro k; cbn [app w_heads length]; [now rewrite Nat.add_0_r|].
  now rewrite IH, <- app_assoc, Nat.add_succ_r.
Qed.
Lemma in_heads k l x : In x (w_heads k l) -> exists a m s b, l = a ++ (true, m, s) :: b /\ x = IxCell (fst (fst s)) (w_id (k + length a) 0) (Serial 0 0).
Proof.
  revert k. induction l as [|[[h m] s] l IH]; intro k; cbn [w_heads]; [intros []|]. rewrite in_app_iff. intros [H|H].
  - destruct h; [|destruct H]. destruct H as [<-|[]]. exists [], m, s, l. cbn. now rewrite Nat.add_0_r.
  - apply IH in H as (a & m' & s' & b & -> & ->). exists ((h, m, s) :: a), m', s', b. split; [reflexivity|]. cbn. now rewrite Nat.add_succ_r.
Qed.

Definition prepared (c : cellid) (d : space_desc) (p : pspace) : Prop :=
  fst (fst p) = c /\ snd (fst p) = map (fun r => (role_id (fst r), snd r)) (sd_roots d) /\
  map fst (snd p) = sd_objects d /\ readies (snd p) /\ space_ready p.

Lemma edit_held c k m s d cell : incl (w_save k m s) c -> prepared cell d s -> NoDup (map od_id (sd_objects d)) ->
  holds_edit c (map (fun r => RvRoot (fst r) (snd r)) (snd (fst s)) ++ [RvGroup (w_id k 0)]) d.
Proof.
  intros I (_ & Q1 & Q2 & R & _) D. exists [sd_objects d]. refine (conj _ (conj _ _)).
  - rewrite flat_map_app. cbn. rewrite app_nil_r, <- Q1. clear. induction (snd (fst s)) as [|[r x] t IH]; cbn; congruence.
  - rewrite flat_map_app. cbn. replace (flat_map _ (map _ (snd (fst s)))) with (@nil exguid) by (clear; induction (snd (fst s)) as [|[r x] t IH]; cbn; congruence).
    constructor; [|constructor]. exists (map fst (w_entries k 0 (snd s))), (map snd (w_entries k 0 (snd s))).
    split; [apply I; right; right; now left|]. split; [now rewrite !map_length|]. rewrite combine_split, <- Q2. apply group_held; [|exact R|].
    + rewrite <- Q2, map_map in D. exact D.
    + intros x Hx. apply I. right. right. right. exact Hx.
  - cbn. now rewrite app_nil_r.
Qed.

Lemma not_indexed l r e' s' : ~ In (IxRevision r e' s') (w_heads 0 l).
Proof. intro H. apply in_heads in H as (? & ? & ? & ? & _ & Q). discriminate Q. Qed.
Lemma chain_held c l cell : incl (w_saves 0 l) c -> forall ds ps, Forall2 (prepared cell) ds ps -> Forall space_fits ds -> ds <> [] ->
  forall h a b, l = a ++ w_chain h ps ++ b -> holds_edits c (w_heads 0 l) (w_id (length a) 0) ds.
Proof.
  intro I. induction 1 as [|d p ds ps Hp P IH]; intros F N h a b E; [contradiction|].
  pose proof (Forall_inv F) as (_ & D & _). pose proof (Forall_inv_tail F) as F'. cbn [w_chain app] in E.
  assert (S0 : incl (w_save (length a) (match ps with [] => false | _ => true end) p) c).
  { intros x Hx. apply I. rewrite E, saves_app. apply in_app_iff. right. cbn [w_saves Nat.add]. apply in_app_iff. now left. }
  pose proof (edit_held c _ _ p d cell S0 Hp D) as HE.
  assert (X : indexed_revision (w_heads 0 l) (w_id (length a) 0) (w_id (length a) 0)) by (right; split; [reflexivity|intros; apply not_indexed]).
  inversion P as [|d2 p2 ds2 ps2 Hp2 P2]; subst ds ps.
  - eapply he_first; [exact X| |exact HE]. apply S0. right. now left.
  - eapply he_next with (base := w_id (S (length a)) 0); [exact X| |exact HE| |].
    + apply S0. right. now left.
    + unfold w_id, nil_id. intro Q. injection Q. lia.
    + specialize (IH F' ltac:(discriminate) false (a ++ [(h, true, p)]) b). rewrite app_length in IH. cbn [length] in IH. rewrite Nat.add_1_r in IH.
      apply IH. rewrite <- app_assoc. exact E.
Qed.
Lemma saves_held c l cell : incl (w_saves 0 l) c -> forall es ps, Forall2 (prepared cell) (rev es) ps -> Forall space_fits es -> es <> [] ->
  forall a b, l = a ++ w_chain true ps ++ b -> holds_saves c (w_heads 0 l) cell es.
Proof.
  intros I es ps P F N a b E.
  assert (Nr : rev es <> []) by (intro Q; apply N; rewrite <- (rev_involutive es), Q; reflexivity).
  exists (w_id (length a) 0), (Serial 0 0), (w_id (length a) 0). refine (conj _ (conj _ (conj _ _))).
  - rewrite E, heads_app. apply in_app_iff. right. destruct P as [|d p ds ps' (Q & _) _]; [contradiction|]. cbn [w_chain app w_heads]. left. cbn [Nat.add]. now rewrite Q.
  - unfold w_id, nil_id. intro Q. injection Q. lia.
  - apply I. rewrite E, saves_app. apply in_app_iff. right. destruct P as [|d p ds ps' (Q & _) _]; [contradiction|]. cbn [w_chain app w_saves]. now left.
  - apply (chain_held c l cell I (rev es) ps P) with (h := true) (b := b); auto. rewrite Forall_forall in *. intros x Hx. apply F. now apply in_rev.
Qed.

(** ** Ranges *)
Lemma save_ok k m s : N.of_nat (S k) + 1 < 2 ^ 128 -> space_ready s -> forallb w_pair_ok (w_save k m s) = true.
Proof.
  intros K R. pose proof (space_ok k s ltac:(lia) R) as H. unfold w_space in H. unfold w_save. cbn [forallb] in *. unfold w_pair_ok in *. cbn [fst snd w_body_ok] in *.
  rewrite !andb_true_iff in H. rewrite !andb_true_iff. destruct m; [|exact H]. rewrite (w_id_fits (S k) 0) by (cbn; lia). intuition.
Qed.
Lemma saves_ok k l : N.of_nat (k + length l) + 1 < 2 ^ 128 -> Forall (fun s => space_ready (snd s)) l -> forallb w_pair_ok (w_saves k l) = true.
Proof.
  revert k. induction l as [|[[h m] s] l IH]; intros k K F; cbn [w_saves]; [reflexivity|]. inversion F; subst. cbn [length] in K.
  rewrite forallb_app, save_ok, IH; auto; lia.
Qed.
Lemma heads_ok k l : N.of_nat (k + length l) + 1 < 2 ^ 128 -> Forall (fun s : wsave => space_ready (snd s)) l -> forallb w_index_item_ok (w_heads k l) = true.
Proof.
  revert k. induction l as [|[[h m] s] l IH]; intros k K F; cbn [w_heads]; [reflexivity|]. inversion F as [|? ? (C & _) F']; subst. cbn [length snd] in *.
  rewrite forallb_app, IH by (auto; lia). destruct h; [|reflexivity]. cbn [forallb w_index_item_ok]. rewrite (cell_fits_w _ C), w_id_fits by (cbn; lia). reflexivity.
Qed.
Lemma history_ok schema hc rc l : schema < 2 ^ 128 -> cell_fits hc -> cell_fits rc -> N.of_nat (length l) + 1 < 2 ^ 128 -> Forall (fun s : wsave => space_ready (snd s)) l ->
  forallb w_pair_ok (w_history schema hc rc l) = true.
Proof.
  intros S0 H R L F. unfold w_history. cbn [forallb]. unfold w_pair_ok at 1 2. cbn [fst snd w_body_ok forallb].
  rewrite saves_ok by (auto; cbn; lia). rewrite heads_ok by (auto; cbn; lia). rewrite !cell_fits_w by assumption.
  replace (schema <? 2 ^ 128) with true by lia. reflexivity.
Qed.
Lemma save_bytes k m s : space_ready s -> Forall el_bytes (w_save k m s).
Proof.
  intro R. pose proof (space_bytes k s R) as H. unfold w_space in H. unfold w_save. inversion H as [|? ? _ H1]; subst. inversion H1 as [|? ? _ H2]; subst.
  constructor; [exact I|]. constructor; [exact I|]. exact H2.
Qed.
Lemma history_bytes schema hc rc l : Forall (fun s : wsave => space_ready (snd s)) l -> Forall el_bytes (w_history schema hc rc l).
Proof.
  intro H. unfold w_history. constructor; [exact I|]. constructor; [exact I|]. generalize 0%nat.
  induction H as [|[[h m] s] l Hs _ IH]; intro k; cbn [w_saves]; [constructor|]. apply Forall_app. split; [now apply save_bytes|apply IH].
Qed.

(** ** The author *)
Lemma prepare_saves c es : cell_fits c -> Forall space_in_range es -> Forall space_fits es -> exists ps, Forall2 (prepared c) es ps.
Proof.
  intros C R F. destruct (prepare_spaces (map (pair c) es)) as (p & P).
  - rewrite Forall_forall in *. intros s I. apply in_map_iff in I as (d & <- & I). cbn. auto.
  - rewrite Forall_forall in *. intros s I. apply in_map_iff in I as (d & <- & I). cbn. auto.
  - exists p. clear - P. revert p P. induction es as [|d es IH]; intros p P; cbn [map] in P; inversion P as [|? q ? p' X P']; subst; constructor; [exact X|auto].
Qed.
Lemma prepare_cells l : Forall (fun s : cellid * list space_desc => cell_fits (fst s) /\ Forall space_in_range (snd s) /\ Forall space_fits (snd s)) l ->
  exists pss, Forall2 (fun s ps => Forall2 (prepared (fst s)) (rev (snd s)) ps) l pss.
Proof.
  induction 1 as [|[c es] l (C & R & F) _ (pss & IH)]; [exists []; constructor|]. cbn [fst snd] in *.
  destruct (prepare_saves c (rev es) C) as (ps & P); [rewrite Forall_forall in *; intros x I; apply in_rev in I; auto..|].
  exists (ps :: pss). constructor; auto.
Qed.

Lemma chain_ready h ps : Forall space_ready ps -> Forall (fun s : wsave => space_ready (snd s)) (w_chain h ps).
Proof. intro F. revert h. induction F as [|p ps Hp _ IH]; intro h; cbn [w_chain]; constructor; auto. Qed.
Lemma chain_length h ps : length (w_chain h ps) = length ps.
Proof. revert h. induction ps as [|p ps IH]; intro h; cbn; auto. Qed.
Lemma forall2_length {A B} (R : A -> B -> Prop) l m : Forall2 R l m -> length l = length m.
Proof. induction 1; cbn; congruence. Qed.
Definition cells_in (items : list index_item) : list cellid := flat_map (fun i => match i with IxCell c _ _ => [c] | _ => [] end) items.
Lemma heads_chain k ps : ps <> [] -> cells_in (w_heads k (w_chain true ps)) = match ps with p :: _ => [fst (fst p)] | [] => [] end.
Proof.
  destruct ps as [|p ps]; [contradiction|]. intros _. cbn [w_chain w_heads app]. unfold cells_in. cbn [flat_map app]. f_equal.
  generalize (S k). induction ps as [|q ps IH]; intro j; cbn [w_chain w_heads app]; [reflexivity|apply IH].
Qed.
Lemma heads_cells (l : list (cellid * list space_desc)) pss : Forall2 (fun s ps => Forall2 (prepared (fst s)) (rev (snd s)) ps) l pss ->
  Forall (fun s => snd s <> []) l -> forall k, cells_in (w_heads k (flat_map (w_chain true) pss)) = map fst l.
Proof.
  induction 1 as [|[c es] ps l pss P _ IH]; intros N k; [reflexivity|]. inversion N as [|? ? N1 N2]; subst. cbn [flat_map map fst snd] in *.
  rewrite heads_app. unfold cells_in in *. rewrite flat_map_app, IH by exact N2. fold (cells_in (w_heads k (w_chain true ps))). rewrite (heads_chain k ps).
  - inversion P as [Q|d p ds ps' (Q & _) _]; subst; [|reflexivity]. symmetry in Q. exfalso. apply N1. rewrite <- (rev_involutive es), Q. reflexivity.
  - inversion P as [Q|]; subst; [|discriminate]. symmetry in Q. exfalso. apply N1. rewrite <- (rev_involutive es), Q. reflexivity.
Qed.
Lemma heads_revisions k l : flat_map (fun i => match i with IxRevision r _ _ => [r] | _ => [] end) (w_heads k l) = [].
Proof. revert k. induction l as [|[[[] m] s] l IH]; intro k; cbn; auto. Qed.

Lemma history_author H : history_fits H -> history_in_range H -> exists d els, bytes_ok d /\ holds d els /\ holds_history (content els) H.
Proof.
  intros (D & F) (R1 & R2 & R3 & R4 & R5 & RC & RH & RL). set (rc := hi_cell H) in *.
  set (cells := (rc, hi_root H) :: hi_spaces H).
  assert (CM : map snd cells = histories H) by reflexivity. assert (CF : map fst cells = rc :: map fst (hi_spaces H)) by reflexivity.
  assert (CA : forall s, In s cells -> cell_fits (fst s) /\ Forall space_in_range (snd s) /\ Forall space_fits (snd s) /\ snd s <> []).
  { intros s I. rewrite <- CM in F, RH. rewrite <- CF in RC. rewrite Forall_forall in F, RH, RC. destruct (F (snd s) (in_map snd _ _ I)) as (N & F1).
    refine (conj (RC _ (in_map fst _ _ I)) (conj (RH _ (in_map snd _ _ I)) (conj F1 N))). }
  destruct (prepare_cells cells) as (pss & P); [rewrite Forall_forall; intros s I; destruct (CA s I) as (A & B & C & _); auto|].
  assert (LL : length (flat_map (w_chain true) pss) = length (concat (histories H))).
  { rewrite <- CM. clear - P. induction P as [|s ps l pss X _ IH]; [reflexivity|]. cbn [flat_map map concat]. rewrite !app_length, chain_length, IH.
    apply forall2_length in X. rewrite rev_length in X. congruence. }
  destruct (fresh (map fst cells)) as (hc & H1 & H2).
  assert (LC : (length (map fst cells) <= length (concat (histories H)))%nat).
  { rewrite <- CM, map_length. clear - CA. induction cells as [|s l IH]; [reflexivity|]. cbn [map concat length]. rewrite app_length.
    destruct (CA s (or_introl eq_refl)) as (_ & _ & _ & N). destruct (snd s) as [|x y]; [contradiction|]. cbn [length]. specialize (IH ltac:(intros; apply CA; now right)). lia. }
  specialize (H2 ltac:(lia)).
  set (D0 := final H). assert (HE : l_oset (header_set D0) (w_oset (header_set D0)) /\ (length (w_oset (header_set D0)) <= 100)%nat).
  { split.
    - apply in_oset. unfold w_oset_ok, header_set, D0. cbn [os_objects os_spaces os_props final td_identity td_ancestor td_version td_crc]. unfold w_props_ok. cbn [forallb fst snd w_val_ok].
      rewrite !guid_enc_length. replace (hi_crc H <? 2 ^ 32) with true by lia. destruct (hi_version H) as [v|]; cbn [forallb fst snd w_val_ok]; [|reflexivity].
      replace (v <? 2 ^ 32) with true by lia. reflexivity.
    - unfold w_oset, w_ids, w_props, header_set, D0. cbn [os_objects os_spaces os_props final td_identity td_ancestor td_version td_crc].
      destruct (hi_version H); cbn [flat_map snd w_val]; unfold w_propid; rewrite !app_length, !le_bytes_length, !guid_enc_length; cbn; lia. }
  destruct HE as (E & L).
  set (hs := (hc, [], [(header_desc D0, w_oset (header_set D0))]) : pspace). set (l := (true, false, hs) :: flat_map (w_chain true) pss : list wsave).
  set (c := w_history (hi_schema H) hc rc l).
  assert (RD : Forall (fun s : wsave => space_ready (snd s)) l).
  { constructor.
    - cbn [snd]. refine (conj H2 (conj (Forall_nil _) (conj _ _))); [|reflexivity]. constructor; [|constructor]. unfold object_ready, header_desc. cbn [fst snd od_id od_refs od_cells od_file].
      refine (conj _ (conj _ (conj (Forall_nil _) (conj _ (conj (Forall_nil _) (conj _ I)))))); [split; reflexivity| |reflexivity..]. split; [|lia]. apply w_oset_bytes. unfold header_set. cbn [os_props set_bytes snd val_bytes].
      destruct (td_version D0); (split; [apply guid_enc_ok|split; [apply guid_enc_ok|repeat split]]).
    - clear - P. induction P as [|s ps l pss X _ IH]; [constructor|]. cbn [flat_map]. apply Forall_app. split; [|exact IH]. apply chain_ready.
      clear - X. induction X as [|? ? ? ? (_ & _ & _ & _ & Y) _ IH]; constructor; auto. }
  exists (w_file 0x109ADD3F911B49F5A5D01791EDC8AED8 (w_id 0 0) (w_elems c)), (map AElem (w_elems c)). split; [now apply w_file_bytes, history_bytes|]. split.
  { apply file_held; [reflexivity|]. apply history_ok; auto.
    - rewrite <- CF in RC. inversion RC; assumption.
    - unfold l. cbn [length]. rewrite LL. lia. }
  rewrite elems_content. assert (IN : incl (w_saves 0 l) c) by (intros x Hx; right; right; exact Hx).
  exists (w_id 0 0), (w_heads 0 l), (w_id 0 0), [(ExGuid 0x1A5A319CC26B41AAB9C59BD8C44E07D4 1, hc); (ExGuid 0x84DEFAB9AAA34A0DA3A8520C77AC7073 2, rc)], hc. cbv zeta. fold rc.
  assert (CE : cells_in (w_heads 0 l) = hc :: rc :: map fst (hi_spaces H)).
  { unfold l. cbn [w_heads]. unfold cells_in. rewrite flat_map_app. cbn [flat_map app fst hs]. f_equal. rewrite <- CF.
    apply (heads_cells cells pss P). rewrite Forall_forall. intros s I. now destruct (CA s I) as (_ & _ & _ & N). }
  assert (HD : forall n s, nth_error cells n = Some s -> holds_saves c (w_heads 0 l) (fst s) (snd s)).
  { intros n s Hn. destruct (CA s (nth_error_In _ _ Hn)) as (_ & _ & F1 & N1).
    assert (exists ps a b, Forall2 (prepared (fst s)) (rev (snd s)) ps /\ flat_map (w_chain true) pss = a ++ w_chain true ps ++ b) as (ps & a & b & Q1 & Q2).
    { clear - P Hn. revert n Hn. induction P as [|x ps l pss X _ IH]; intros [|n] Hn; try discriminate Hn; cbn [nth_error flat_map] in *.
      - injection Hn as ->. exists ps, [], (flat_map (w_chain true) pss). split; [exact X|reflexivity].
      - destruct (IH n Hn) as (ps' & a & b & Q1 & ->). exists ps', (w_chain true ps ++ a), b. split; [exact Q1|now rewrite <- app_assoc]. }
    apply (saves_held c l (fst s) IN (snd s) ps Q1 F1 N1 ((true, false, hs) :: a) b). unfold l. now rewrite Q2. }
  assert (K3 : hc <> rc) by (intros Q; apply H1; rewrite CF; left; congruence).
  refine (conj (history_unambiguous _ _ _ _) (conj (or_introl eq_refl) (conj (or_intror (or_introl eq_refl)) (conj _ (conj _ (conj _ (conj _ (conj _ (conj _ (conj _ _)))))))))).
  - intro x. cbn [In]. split; [intros [Q|[Q|[]]]; congruence|intros ->; now left].
  - intro x. cbn [In]. split; [intros [Q|[Q|[]]]; congruence|intros ->; right; now left].
  - change (NoDup (cells_in (w_heads 0 l))). rewrite CE. constructor; [rewrite <- CF; exact H1|exact D].
  - rewrite heads_revisions. constructor.
  - exists [], [], [w_kind_entry (header_desc D0)], (DeclObject (ExGuid 1 1) 1 0 0 0), [], [], (w_oset (header_set D0)), [], [], (header_set D0). fold D0.
    refine (conj _ (conj _ (conj eq_refl (conj E (conj R2 (conj R3 (conj _ (conj _ (conj _ _))))))))).
    + rewrite app_nil_r. exists (w_id 0 0), (Serial 0 0), (w_id 0 0), (w_id 0 0), (w_id 0 0), [RvGroup (w_id 0 0)].
      refine (conj _ (conj _ (conj _ (conj _ (conj _ (conj eq_refl _)))))).
      * unfold l. cbn [w_heads app]. now left.
      * unfold w_id, nil_id. intro Q. injection Q. lia.
      * apply IN. unfold l. cbn [w_saves app w_save]. now left.
      * right. split; [reflexivity|]. intros; apply not_indexed.
      * apply IN. unfold l. cbn [w_saves app w_save]. right. now left.
      * constructor; [|constructor]. exists (map fst (w_entries 0 0 (snd hs))), (map snd (w_entries 0 0 (snd hs))).
        split; [apply IN; unfold l; cbn [w_saves app w_save]; right; right; now left|]. split; [now rewrite !map_length|apply combine_split].
    + intros x [<-|[]]. cbn. discriminate.
    + destruct (td_version D0) eqn:V; unfold header_set; rewrite V; cbn; eauto.
    + destruct (td_version D0) eqn:V; unfold header_set; rewrite V; cbn; eauto.
    + destruct (td_version D0) eqn:V; unfold header_set; rewrite V; cbn; eauto.
    + destruct (td_version D0) eqn:V; unfold header_set; rewrite V; cbn; eauto.
  - exact (HD 0%nat (rc, hi_root H) eq_refl).
  - rewrite Forall_forall. intros x Hx. assert (J : In (fst x) (map fst (hi_spaces H))) by now apply in_map.
    split; [intro Q; apply H1; rewrite CF, <- Q; now right|]. split; [intro Q; rewrite Q in J; inversion D; contradiction|].
    apply In_nth_error in Hx as (n & Hn). exact (HD (S n) x Hn).
  - intros x m s I. right. assert (J : In x (cells_in (w_heads 0 l))) by (apply in_flat_map; exists (IxCell x m s); split; [exact I|now left]).
    rewrite CE in J. destruct J as [<-|[<-|J]]; auto.
Qed.
