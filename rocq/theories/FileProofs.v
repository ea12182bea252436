(** Files that hold a described store open to that store. *)
From Coq Require Import Lia ZifyBool ZifyNat ZifyN Permutation.
From Verif Require Import Base BaseProofs Codec SpecCodec CodecProofs CodecRT2 Package SpecPackage PackageRT PackageFacts PropSet PropIds SpecPropSet
  PropSetRT Store SpecStore StoreProofs StoreProofs2 StoreProofs3 SpecAccept AcceptProofs SpecSame SameProofs Notebook SpecFile.

(** ** Tables *)
Section Tables.
  Context (els : list aelem) (U : unambiguous (content els)).
  Let pk := fold_left aelem_step els package_empty.

  Lemma means_pk : package_means (proper els) (without_fragments pk).
  Proof. apply a_means_fold. Qed.

  Lemma last_elem {B} (f : element -> option B) id x b k :
    (forall y, f y <> None -> kind y = k) -> In (id, x) (content els) -> f x = Some b ->
    last_for (of_elem f id) (proper els) = Some b.
  Proof.
    intros K I E. unfold content in I. apply in_map_iff in I as (y & Ey & I). injection Ey as E1 E2.
    assert (S : of_elem f id y = Some b).
    { unfold of_elem. rewrite E1. replace (exguid_eqb id id) with true by (symmetry; now apply exguid_eqb_eq). now rewrite E2. }
    destruct (last_for (of_elem f id) (proper els)) as [b'|] eqn:L.
    - apply last_for_in in L as (z & Iz & Sz). f_equal. assert (Q : el_content z = x).
      { destruct U as (D & _). unfold content in D. rewrite map_map in D. cbn in D.
        unfold of_elem in Sz. destruct (exguid_eqb (el_id z) id) eqn:Q; [|discriminate]. apply exguid_eqb_eq in Q.
        rewrite (nodup_key _ _ z y D Iz I); [exact E2|]. f_equal; [congruence|].
        rewrite (K (el_content z)), (K (el_content y)); congruence. }
      unfold of_elem in Sz. destruct (exguid_eqb (el_id z) id); [|discriminate]. congruence.
    - pose proof (last_for_none _ _ _ L I). congruence.
  Qed.

  Lemma at_index id items : In (id, ElIndex items) (content els) ->
    exists si, alookup exguid_eqb id (pk_indexes pk) = Some si /\ index_means items si.
  Proof.
    intro I. pose proof (proj1 means_pk id) as M.
    rewrite (last_elem _ id (ElIndex items) items 1) in M; [|intros []; cbn; congruence|exact I|reflexivity].
    cbn [pk_indexes without_fragments] in M. destruct (alookup exguid_eqb id (pk_indexes pk)) as [si|]; [|destruct M]. eauto.
  Qed.
  Lemma at_manifest id g l : In (id, ElManifest g l) (content els) ->
    exists sm, alookup exguid_eqb id (pk_manifests pk) = Some sm /\ manifest_means g l sm.
  Proof.
    intro I. pose proof (proj1 (proj2 means_pk) id) as M.
    rewrite (last_elem _ id (ElManifest g l) (g, l) 2) in M; [|intros []; cbn; congruence|exact I|reflexivity].
    cbn [pk_manifests without_fragments] in M. destruct (alookup exguid_eqb id (pk_manifests pk)) as [sm|]; [|destruct M]. eauto.
  Qed.
  Lemma at_cell id r : In (id, ElCell r) (content els) -> alookup exguid_eqb id (pk_cells pk) = Some r.
  Proof.
    intro I. pose proof (proj1 (proj2 (proj2 means_pk)) id) as M.
    rewrite (last_elem _ id (ElCell r) r 3) in M; [|intros []; cbn; congruence|exact I|reflexivity]. now symmetry.
  Qed.
  Lemma at_revision id r b l : In (id, ElRevision r b l) (content els) ->
    exists rm, alookup exguid_eqb id (pk_revisions pk) = Some rm /\ revision_means r b l rm.
  Proof.
    intro I. pose proof (proj1 (proj2 (proj2 (proj2 means_pk))) id) as M.
    rewrite (last_elem _ id (ElRevision r b l) (r, b, l) 4) in M; [|intros []; cbn; congruence|exact I|reflexivity].
    cbn [pk_revisions without_fragments] in M. destruct (alookup exguid_eqb id (pk_revisions pk)) as [sm|]; [|destruct M]. eauto.
  Qed.
  Lemma at_group id d o : In (id, ElGroup d o) (content els) -> group_at pk id (ObjectGroup d [] o).
  Proof.
    intro I. pose proof (proj1 (proj2 (proj2 (proj2 (proj2 means_pk)))) id) as M.
    rewrite (last_elem _ id (ElGroup d o) (d, o) 5) in M; [|intros []; cbn; congruence|exact I|reflexivity].
    cbn [pk_groups without_fragments] in M. unfold group_at. destruct (alookup exguid_eqb id (pk_groups pk)) as [g|]; [|destruct M].
    now rewrite M.
  Qed.
  Lemma at_blob id b : In (id, ElBlob b) (content els) -> blob_at pk id b.
  Proof.
    intro I. pose proof (proj1 (proj2 (proj2 (proj2 (proj2 (proj2 means_pk))))) id) as M.
    rewrite (last_elem _ id (ElBlob b) b 10) in M; [|intros []; cbn; congruence|exact I|reflexivity]. now symmetry.
  Qed.

  Lemma one_index : (length (pk_indexes pk) <= 1)%nat.
  Proof. now apply (packages_agree els els). Qed.
  Lemma one_manifest : (length (pk_manifests pk) <= 1)%nat.
  Proof.
    destruct U as (_ & _ & L). unfold pk.
    replace (pk_manifests (fold_left aelem_step els package_empty)) with (pk_manifests (without_fragments (fold_left aelem_step els package_empty))) by reflexivity.
    rewrite without_fold. etransitivity; [|exact L]. unfold content. fold pair_of.
    eapply (kind_length pk_manifests (fun x => match x with ElManifest g l => Some (StorageManifestV g (fold_left (fun m e => ainsert exguid_eqb (fst e) (snd e) m) l [])) | _ => None end) 2); kindly.
  Qed.
End Tables.

(** ** The index *)
Lemma last_unique {A B} (sel : A -> option B) l x b :
  In x l -> sel x = Some b -> (forall y b', In y l -> sel y = Some b' -> b' = b) -> last_for sel l = Some b.
Proof.
  intros I S Q. destruct (last_for sel l) as [b'|] eqn:L.
  - apply last_for_in in L as (y & Iy & Sy). f_equal. eauto.
  - pose proof (last_for_none _ _ _ L I). congruence.
Qed.
Lemma last_absent {A B} (sel : A -> option B) l : (forall y, In y l -> sel y = None) -> last_for sel l = None.
Proof.
  intros Q. destruct (last_for sel l) as [b'|] eqn:L; [|reflexivity].
  apply last_for_in in L as (y & Iy & Sy). rewrite Q in Sy by exact Iy. discriminate.
Qed.
Lemma nodup_flat_key {A B} (g : A -> list B) l x y b : NoDup (flat_map g l) -> In x l -> In y l -> In b (g x) -> In b (g y) -> x = y.
Proof.
  induction l as [|a l IH]; cbn; [contradiction|]. intros D Ix Iy Bx By.
  assert (D2 : NoDup (flat_map g l)).
  { clear - D. induction (g a) as [|z r IH]; cbn in D; [exact D|]. inversion D; auto. }
  assert (DJ : forall z, In z (g a) -> ~ In z (flat_map g l)).
  { clear - D. induction (g a) as [|w r IH]; cbn in D; [intros z []|]. inversion D as [|? ? N D']; subst.
    intros z [->|Z] X; [|exact (IH D' z Z X)]. apply N, in_app_iff. now right. }
  destruct Ix as [->|Ix], Iy as [->|Iy]; auto.
  - exfalso. apply (DJ b Bx), in_flat_map. eauto.
  - exfalso. apply (DJ b By), in_flat_map. eauto.
Qed.

Section Index.
  Context (items : list index_item) (si : storage_index) (M : index_means items si).
  Context (DC : NoDup (flat_map (fun i => match i with IxCell c _ _ => [c] | _ => [] end) items)).
  Context (DR : NoDup (flat_map (fun i => match i with IxRevision r _ _ => [r] | _ => [] end) items)).

  Lemma index_cell c m s : In (IxCell c m s) items -> alookup cellid_eqb c (si_cells si) = Some (CellMapping c m s).
  Proof.
    intro I. rewrite (proj1 (proj2 M)). eapply last_unique; [exact I| |].
    - cbn. replace (cellid_eqb c c) with true by (symmetry; now apply cellid_eqb_eq). reflexivity.
    - intros y b' Iy E. destruct y as [| |c' m' s']; try discriminate E. all: try (destruct (cellid_eqb _ c) eqn:Q; [|discriminate E]; apply cellid_eqb_eq in Q).
      all: injection E as <-; subst. all: (assert (X := nodup_flat_key _ _ _ _ c DC I Iy (or_introl eq_refl) (or_introl eq_refl)); injection X as <- <-; reflexivity).
  Qed.
  Lemma cell_indexed c x : alookup cellid_eqb c (si_cells si) = Some x -> In (IxCell c (cm_id x) (cm_serial x)) items /\ cm_cell x = c.
  Proof.
    rewrite (proj1 (proj2 M)). intro H. apply last_for_in in H as (i & I & E). destruct i; try discriminate E.
    destruct (cellid_eqb _ c) eqn:Q; [|discriminate E]. apply cellid_eqb_eq in Q. subst. injection E as <-. auto.
  Qed.
  Lemma index_revision pk r e rm : indexed_revision items r e -> revision_at pk e rm ->
    names_revision pk si r e /\ forall e', names_revision pk si r e' -> e' = e.
  Proof.
    intros [(s & I)|(-> & N)] A.
    - assert (L : alookup exguid_eqb r (si_revs si) = Some (RevMapping e s)).
      { rewrite (proj2 (proj2 M)). eapply last_unique; [exact I| |].
        - cbn. replace (exguid_eqb r r) with true by (symmetry; now apply exguid_eqb_eq). reflexivity.
        - intros y b' Iy E. destruct y as [| |r' m' s']; try discriminate E. all: try (destruct (exguid_eqb _ r) eqn:Q; [|discriminate E]; apply exguid_eqb_eq in Q).
          all: injection E as <-; subst. all: (assert (X := nodup_flat_key _ _ _ _ r DR I Iy (or_introl eq_refl) (or_introl eq_refl)); injection X as <- <-; reflexivity). }
      split; [left; eauto|]. intros e' [(m & E & <-)|(E & _)]; rewrite L in E; [now injection E as <-|discriminate].
    - assert (L : alookup exguid_eqb r (si_revs si) = None).
      { rewrite (proj2 (proj2 M)). apply last_absent. intros [| |r' m' s'] Iy; try reflexivity.
        all: destruct (exguid_eqb _ r) eqn:Q; [|reflexivity]; apply exguid_eqb_eq in Q; subst; exfalso; eapply N; eauto. }
      split; [right; eauto|]. intros e' [(m & E & <-)|(E & -> & _)]; congruence.
  Qed.
End Index.

(** ** Objects *)
Lemma combine_fst {A B} (l : list A) (l' : list B) x : length l = length l' -> In x l <-> exists y, In (x, y) (combine l l').
Proof.
  revert l'; induction l as [|a l IH]; intros [|b l'] L; cbn in *; try discriminate.
  - split; [contradiction|intros (_ & [])].
  - injection L as L. split.
    + intros [->|I]; [eauto|]. apply (IH l' L) in I as (y & I). eauto.
    + intros (y & [E|I]); [injection E as -> ->; now left|]. right. apply (IH l' L). eauto.
Qed.

Lemma entry_unique ds os id p (x : entry) :
  NoDup (map (fun e => (decl_object_id (fst e), decl_partition (fst e))) (combine ds os)) ->
  In x (combine ds os) -> entry_for id p x -> group_entry (ObjectGroup ds [] os) id p (snd x).
Proof.
  intros D I (E1 & E2). apply in_split in I as (pre & suf & E). destruct x as [d o]. exists pre, d, suf. cbn [og_decls og_objects snd].
  split; [exact E|]. split; [exact E1|]. split; [exact E2|]. intros d' o' I' (E1' & E2'). rewrite E, map_app in D. cbn [map fst] in D.
  apply NoDup_remove_2 in D. apply D, in_app_iff. right. apply in_map_iff. exists (d', o'). cbn [fst] in *. split; [congruence|exact I'].
Qed.
Lemma entry_in ds os id p od : group_entry (ObjectGroup ds [] os) id p od -> exists d, In (d, od) (combine ds os) /\ entry_for id p (d, od).
Proof.
  intros (pre & d & suf & E & E1 & E2 & _). cbn [og_decls og_objects] in E. exists d. rewrite E. split; [apply in_app_iff; right; now left|now split].
Qed.
Lemma entry_fun g id p o o' : group_entry g id p o -> group_entry g id p o' -> o = o'.
Proof. intros H H'. apply find_object_entry in H. apply find_object_entry in H'. congruence. Qed.

Lemma run_reads {A} (p : parser A) e t x : p (e ++ t) = Ok (x, t) -> run p (e ++ t) = Ok x.
Proof. unfold run. now intros ->. Qed.
Lemma kind_reads k t : k < 2 ^ 32 -> run jcid_parse (le_bytes 4 k ++ t) = Ok k.
Proof. intro H. apply run_reads. unfold jcid_parse. apply (reads_uint 4 k (le_bytes 4 k) t). split; [exact H|reflexivity]. Qed.

Section Objects.
  Context (els : list aelem) (U : unambiguous (content els)).
  Let pk := fold_left aelem_step els package_empty.
  Context (ds : list odecl) (os : list odata) (L : length ds = length os).
  Context (D : NoDup (map (fun e : entry => (decl_object_id (fst e), decl_partition (fst e))) (combine ds os))).
  Context (cell : cellid) (d : object_desc) (H : holds_object (content els) (combine ds os) d) (F : object_fits d).
  Let g := ObjectGroup ds [] os.

  Lemma fits_means p : oset_means (od_set d) p ->
    (length (od_refs d) <= length (op_object_ids p))%nat /\
    (length (od_cells d) = length (op_context_ids p) + length (op_space_ids p))%nat.
  Proof.
    intros (-> & -> & -> & _). destruct F as (F1 & F2). rewrite F1, F2. split; [apply le_n|].
    destruct (os_spaces (od_set d)) as [[s [c|]]|]; reflexivity.
  Qed.

  Lemma described_object : exists o, object_of pk (fst cell) (snd cell) g (od_id d) o.
  Proof.
    destruct H as ((dk & gr & ce & bs & t & Ik & Ek & -> & Hk) & (dd & bs' & e & t' & Id & Ed & -> & He) & Hf).
    destruct (reads_oset _ _ t' He) as (p & Hp & Mp). destruct (fits_means p Mp) as (F1 & F2).
    exists (Object (fst cell) (od_kind d) p (od_file d)
      (mapping_from_entries (own_table p (od_refs d) (od_cells d) (snd cell)) (space_table p (od_cells d) (snd cell)))).
    constructor; cbn [ob_context ob_jcid ob_props ob_file ob_mapping].
    - exact L.
    - reflexivity.
    - exists gr, ce, (le_bytes 4 (od_kind d) ++ t). split; [exact (entry_unique _ _ _ _ _ D Ik Ek)|now apply kind_reads].
    - exists (od_refs d), (od_cells d), (e ++ t'). split; [exact (entry_unique _ _ _ _ _ D Id Ed)|].
      split; [now apply run_reads|]. split; [exact F1|]. split; [exact F2|]. split; intros i cid; apply mapping_resolves.
    - destruct (od_file d) as [b|].
      + right. destruct Hf as (df & gr' & ce' & bid & If & Ef & Ib). exists gr', ce', bid, b.
        split; [exact (entry_unique _ _ _ _ _ D If Ef)|]. split; [now apply at_blob|reflexivity].
      + left. split; [reflexivity|]. intros od G. apply entry_in in G as (df & If & Ef). exact (Hf _ If Ef).
  Qed.

  Lemma object_described o : object_of pk (fst cell) (snd cell) g (od_id d) o -> object_is cell d o.
  Proof.
    destruct H as ((dk & gr & ce & bs & t & Ik & Ek & -> & Hk) & (dd & bs' & e & t' & Id & Ed & -> & He) & Hf).
    intros [_ C (gr1 & ce1 & md & G1 & J) (refs & cells & bs1 & G2 & P & _ & _ & R1 & R2) Fi].
    pose proof (entry_fun _ _ _ _ _ G1 (entry_unique _ _ _ _ _ D Ik Ek)) as Q1. cbn [snd] in Q1. injection Q1 as -> -> ->.
    pose proof (entry_fun _ _ _ _ _ G2 (entry_unique _ _ _ _ _ D Id Ed)) as Q2. cbn [snd] in Q2. injection Q2 as -> -> ->.
    pose proof (kind_reads _ t Hk) as K. change (run jcid_parse (le_bytes 4 (od_kind d) ++ t) = Ok (ob_jcid o)) in J. rewrite K in J. injection J as J.
    destruct (reads_oset _ _ t' He) as (p & Hp & Mp). apply run_reads in Hp. rewrite Hp in P. injection P as P.
    refine (conj C (conj (eq_sym J) (conj _ (conj _ (conj R1 R2))))).
    - now rewrite <- P.
    - destruct (od_file d) as [b|].
      + destruct Hf as (df & gr' & ce' & bid & If & Ef & Ib). pose proof (entry_unique _ _ _ _ _ D If Ef) as G. cbn [snd] in G.
        destruct Fi as [(_ & X)|(os1 & cs1 & b1 & x & G' & B & ->)]; [exfalso; exact (X _ G)|].
        pose proof (entry_fun _ _ _ _ _ G' G) as Q. injection Q as -> -> ->. apply (at_blob els U) in Ib. unfold blob_at in *.
        unfold pk in B. congruence.
      + destruct Fi as [(X & _)|(os1 & cs1 & b1 & x & G' & B & _)]; [exact X|]. apply entry_in in G' as (df & If & Ef).
        exfalso. exact (Hf _ If Ef).
  Qed.
End Objects.

(** ** Spaces *)
Section Spaces.
  Context (els : list aelem) (U : unambiguous (content els)).
  Let pk := fold_left aelem_step els package_empty.
  Context (items : list index_item) (si : storage_index) (M : index_means items si).
  Context (DC : NoDup (flat_map (fun i => match i with IxCell c _ _ => [c] | _ => [] end) items)).
  Context (DR : NoDup (flat_map (fun i => match i with IxRevision r _ _ => [r] | _ => [] end) items)).

  Lemma held_revision cell roots groups : holds_revision (content els) items cell roots groups ->
    exists m id rm gs, alookup cellid_eqb cell (si_cells si) = Some m /\ cm_cell m = cell /\ cm_id m <> nil_id /\
      newest pk si m id /\ (forall id', newest pk si m id' -> id' = id) /\
      revision_at pk id rm /\ rm_base_rev_id rm = nil_id /\ rm_roots rm = roots /\
      Forall2 (group_at pk) (rm_groups rm) gs /\
      Forall2 (fun g es => exists ds os, g = ObjectGroup ds [] os /\ length ds = length os /\ combine ds os = es) gs groups.
  Proof.
    intros (m & s & r & e & rev & its & I & N & C & X & R & <- & G).
    destruct (at_revision els U _ _ _ _ R) as (rm & Hrm & ->). fold pk in Hrm.
    destruct (index_revision items si M DR pk r e _ X Hrm) as (NR & UR).
    assert (B : by_manifest pk si (CellMapping cell m s) e).
    { exists r. cbn [cm_id]. split; [now apply at_cell|exact NR]. }
    assert (GS : exists gs, Forall2 (group_at pk) (flat_map (fun i => match i with RvGroup g => [g] | _ => [] end) its) gs /\
      Forall2 (fun g es => exists ds os, g = ObjectGroup ds [] os /\ length ds = length os /\ combine ds os = es) gs groups).
    { clear - G U. induction G as [|g es l l' (ds & os & I & L & E) _ (gs & IH1 & IH2)]; [exists []; split; constructor|].
      exists (ObjectGroup ds [] os :: gs). split; constructor; eauto. now apply at_group. }
    destruct GS as (gs & G1 & G2).
    eexists (CellMapping cell m s), e, (RevManifest _ _ _ _), gs. cbn [cm_cell cm_id].
    refine (conj _ (conj eq_refl (conj N (conj _ (conj _ (conj Hrm (conj eq_refl (conj eq_refl (conj G1 G2))))))))).
    - now apply (index_cell items).
    - now left.
    - intros id' [(r' & E & NR')|[(Z & _)|(Z & _)]]; [|exfalso; exact (Z _ B)..]. cbn [cm_id] in E.
      pose proof (at_cell els U _ _ C) as E'. fold pk in E'. rewrite E' in E. injection E as <-. now apply UR.
  Qed.

  Lemma role_id_inj r r' : role_id r = role_id r' -> r = r'.
  Proof. destruct r, r'; intro Q; try reflexivity; discriminate Q. Qed.
  Lemma last_in_roots (roots : list (role * exguid)) r x : NoDup (map fst roots) ->
    last_root (map (fun p => (role_id (fst p), snd p)) roots) r x <-> In (r, x) roots.
  Proof.
    intro D. split.
    - intros (pre & suf & E & _). assert (I : In (role_id r, x) (map (fun p => (role_id (fst p), snd p)) roots))
        by (rewrite E; apply in_app_iff; right; now left).
      apply in_map_iff in I as ([r' x'] & Q & I). cbn [fst snd] in Q. assert (Q1 : role_id r' = role_id r) by congruence. assert (Q2 : x' = x) by congruence. apply role_id_inj in Q1. now subst.
    - intro I. apply in_split in I as (pre & suf & ->). exists (map (fun p => (role_id (fst p), snd p)) pre), (map (fun p => (role_id (fst p), snd p)) suf).
      rewrite map_app. split; [reflexivity|]. intros [q y] J. apply in_map_iff in J as ([r' x'] & Q & J). injection Q as <- <-. cbn.
      intro Q. rewrite map_app in D. cbn [map fst] in D. apply NoDup_remove_2 in D. apply D, in_app_iff. right.
      apply in_map_iff. exists (r', x'). split; [|exact J]. cbn. now apply role_id_inj.
  Qed.

  Lemma held_space h fuel cell d : holds_space (content els) items cell d -> space_fits d -> (1 <= fuel)%nat ->
    exists m sp, alookup cellid_eqb cell (si_cells si) = Some m /\ cm_cell m = cell /\ cm_id m <> nil_id /\
      space_parse h fuel m si pk [] = Ok (cell, sp) /\ space_is cell d sp.
  Proof.
    intros (groups & parts & R & G & E) (D1 & D2 & FO) Fu.
    destruct (held_revision _ _ _ R) as (m & id & rm & gs & Hm & Cm & Nm & Nw & Uq & Hrm & Hb & Hr & G1 & G2).
    assert (CH : chain pk si id [rm]) by now constructor.
    assert (CG : chain_groups pk [rm] gs) by (unfold chain_groups; cbn [flat_map]; now rewrite app_nil_r).
    assert (RT : flat_map rm_roots [rm] = map (fun r => (role_id (fst r), snd r)) (sd_roots d)) by (cbn [flat_map]; now rewrite app_nil_r).
    (* groups with their descriptions *)
    assert (GD : Forall2 (fun g part => exists ds os, g = ObjectGroup ds [] os /\ length ds = length os /\
                   holds_group (content els) (combine ds os) part) gs parts).
    { clear - G2 G. revert parts G. induction G2 as [|g es l l' (ds & os & -> & L & Q) _ IH]; intros parts G; inversion G; subst; constructor; eauto. }
    assert (DE : forall g part oid, (exists ds os, g = ObjectGroup ds [] os /\ length ds = length os /\
                   holds_group (content els) (combine ds os) part) -> declares g oid <-> In oid (map od_id part)).
    { intros g part oid (ds & os & -> & L & _ & Ho & Hi). split.
      - intros (dc & I & <-). cbn [og_decls] in I. apply (combine_fst _ os _ L) in I as (y & I). exact (Hi _ I).
      - intro I. apply in_map_iff in I as (x & <- & I). rewrite Forall_forall in Ho.
        destruct (Ho x I) as ((dk & gr & ce & bs & t & Ik & (E1 & _) & _) & _). exists dk. split; [|exact E1].
        cbn [og_decls]. apply (combine_fst _ os _ L). eauto. }
    (* the group of a described object *)
    assert (OW : forall x, In x (sd_objects d) -> exists g part, In x part /\ first_declaring gs (od_id x) g /\
                   exists ds os, g = ObjectGroup ds [] os /\ length ds = length os /\ holds_group (content els) (combine ds os) part).
    { rewrite E in *. intros x I. clear - GD DE I D2. induction GD as [|g part gs parts Hg GD IH]; cbn [concat] in *; [destruct I|].
      rewrite map_app in D2. apply in_app_iff in I as [I|I].
      - exists g, part. split; [exact I|]. split; [|exact Hg]. exists [], gs. split; [reflexivity|]. split; [|intros ? []].
        apply (DE g part); [exact Hg|]. now apply in_map.
      - assert (N : ~ In (od_id x) (map od_id part)).
        { intro J. apply (in_map od_id) in I. clear - D2 I J. induction (map od_id part) as [|a r IH']; [destruct J|].
          cbn in D2. inversion D2 as [|? ? N D]; subst. destruct J as [->|J]; [apply N, in_app_iff; now right|auto]. }
        destruct IH as (g' & part' & I' & (pre & suf & -> & De & Pr) & Hg'); [|exact I|].
        { clear - D2. induction (map od_id part) as [|a r IH']; [exact D2|]. cbn in D2. inversion D2; auto. }
        exists g', part'. split; [exact I'|]. split; [|exact Hg']. exists (g :: pre), suf. split; [reflexivity|]. split; [exact De|].
        intros g'' [<-|J]; [rewrite (DE g part _ Hg); exact N|auto]. }
    assert (SP : exists s, space_parse h fuel m si pk [] = Ok (cm_cell m, s)).
    { apply (space_parse_accepts h fuel m si pk id [rm] gs Nw Uq CH CG).
      - rewrite RT. intros x I. apply in_map_iff in I as (r & <- & _). cbn. eauto.
      - intros oid g (pre & suf & -> & De & Pr). apply Forall2_app_inv_l in GD as (p1 & p2 & GD1 & GD2 & ->).
        inversion GD2 as [|? part ? p3 Hg GD3]; subst. apply (DE _ part _ Hg) in De. apply in_map_iff in De as (x & <- & Ix).
        destruct Hg as (ds & os & -> & L & Dk & Ho & Hi). rewrite Forall_forall in Ho. eapply described_object; eauto.
        rewrite Forall_forall in FO. apply FO. rewrite E. rewrite concat_app. cbn [concat]. rewrite !in_app_iff. auto.
      - cbn. lia. }
    destruct SP as (sp & SP). rewrite Cm in SP. exists m, sp. refine (conj Hm (conj Cm (conj Nm (conj SP _)))).
    apply space_parse_ok in SP as (_ & I1 & I2 & [(_ & _ & _ & X)|(id' & revs & gs' & Nw' & CH' & CG' & O1 & O2 & _ & RR)]); [exfalso; exact (X _ Nw)|].
    apply Uq in Nw'. subst id'.
    assert (revs = [rm]) as ->.
    { inversion CH' as [? rm' A B|? rm' id2 l A B]; subst; unfold revision_at in *; [congruence|]. exfalso. apply B. congruence. }
    assert (gs' = gs) as ->.
    { unfold chain_groups in CG, CG'. clear - CG CG'. revert gs CG. induction CG' as [|x y l l' Hxy _ IH]; intros gs CG; inversion CG; subst; [reflexivity|].
      f_equal; [unfold group_at in *; congruence|auto]. }
    refine (conj I1 (conj I2 (conj _ (conj _ _)))).
    - intros r x. rewrite RR, RT. now apply last_in_roots.
    - intros x Ix. destruct (OW x Ix) as (g & part & Ip & Fd & ds & os & -> & L & Dk & Ho & Hi). rewrite Forall_forall in Ho.
      destruct (get_object sp (od_id x)) as [o|] eqn:Go.
      + exists o. split; [reflexivity|]. destruct (O1 _ _ Go) as (g' & Fd' & Oo).
        assert (g' = ObjectGroup ds [] os) as -> by (eapply first_declaring_fun; eauto).
        eapply object_described; eauto.
      + exfalso. rewrite O2 in Go. destruct Fd as (pre & suf & -> & De & _). apply (Go (ObjectGroup ds [] os)); [apply in_app_iff; right; now left|exact De].
    - intros oid o Go. destruct (O1 _ _ Go) as (g & (pre & suf & -> & De & _) & _).
      apply Forall2_app_inv_l in GD as (p1 & p2 & _ & GD2 & ->). inversion GD2 as [|? part ? p3 Hg GD3]; subst.
      apply (DE _ part _ Hg) in De. rewrite E, concat_app. cbn [concat]. rewrite !map_app, !in_app_iff. auto.
  Qed.
End Spaces.

(** ** The header *)
Lemma set_get s m id k v : set_means s m -> last_at 0 (pid_id id) s = Some (k, v) ->
  exists w, propset_get id m = Some w /\ val_means v w.
Proof.
  intros [s' m' _ _ H] L. apply H in L as (w & E & V). exists w. unfold propset_get. rewrite E. auto.
Qed.
Lemma set_get_none s m id : set_means s m -> last_at 0 (pid_id id) s = None -> propset_get id m = None.
Proof. intros [s' m' _ H _] L. apply H in L. unfold propset_get. now rewrite L. Qed.

Lemma find_skip {A} (f : A -> bool) pre x suf :
  (forall y, In y pre -> f y = false) -> f x = true -> find f (pre ++ x :: suf) = Some x.
Proof.
  induction pre as [|a pre IH]; cbn; intros P X; [now rewrite X|]. rewrite (P a) by now left. apply IH; auto.
Qed.

Lemma held_header els items si h hc d : unambiguous (content els) -> index_means items si ->
  NoDup (flat_map (fun i => match i with IxCell c _ _ => [c] | _ => [] end) items) ->
  NoDup (flat_map (fun i => match i with IxRevision r _ _ => [r] | _ => [] end) items) ->
  holds_header (content els) items hc d ->
  exists m gs g, find_cell_mapping_id si hc = Some m /\
    find_objects h (fold_left aelem_step els package_empty) m si = Ok gs /\ hd_error gs = Some g /\
    header_parse_store g = Ok (StoreHeader (td_identity d) (td_ancestor d) (td_version d) (td_crc d)).
Proof.
  intros U M DC DR (roots & groups & pre & dcl & gr & ce & e & t & suf & set & R & Np & P1 & He & B1 & B2 & (k1 & L1) & (k2 & L2) & L3 & (k4 & L4)).
  destruct (held_revision els U items si M DC DR _ _ _ R) as (m & id & rm & gs & Hm & Cm & Nm & Nw & Uq & Hrm & Hb & Hr & G1 & G2).
  inversion G2 as [|g es gs' groups' (ds & os & -> & L & Q) G3]; subst. clear G2 G3.
  exists (cm_id m), (ObjectGroup ds [] os :: gs'), (ObjectGroup ds [] os).
  refine (conj _ (conj _ (conj eq_refl _))).
  - unfold find_cell_mapping_id. now rewrite Hm.
  - unfold find_objects. pose proof (resolve_cell_spec (fold_left aelem_step els package_empty) si m) as S.
    destruct (resolve_cell_revision_manifest_id _ si (cm_id m)) as [id'|].
    + assert (id' = id) as -> by (apply Uq; unfold newest; tauto). cbn [or_else ok_or rbind].
      unfold find_revision_manifest. unfold revision_at in Hrm. rewrite Hrm. cbn [ok_or rbind].
      clear - G1. revert G1. generalize (ObjectGroup ds [] os :: gs'). induction (rm_groups rm) as [|r l IH]; intros gs G; inversion G; subst; [reflexivity|].
      cbn [map_res]. unfold find_object_group in *. unfold group_at in H1. rewrite H1. cbn [ok_or rbind]. now rewrite (IH _ H3).
    + exfalso. destruct S as (S1 & S2). destruct Nw as [X|[(_ & X)|(_ & _ & X)]]; [exact (S1 _ X)|exact (S2 _ X)|].
      destruct R as (m' & s' & r & e' & rev & its & I & N & C & X' & Re & _).
      apply (index_cell items si M DC) in I. rewrite Hm in I. injection I as I. assert (Ci : cm_id m = m') by (rewrite I; reflexivity).
      destruct (at_revision els U _ _ _ _ Re) as (rm' & Hrm' & ->).
      destruct (index_revision items si M DR _ r e' _ X' Hrm') as (NR & _). apply (S1 e').
      exists r. rewrite Ci. split; [now apply at_cell|exact NR].
  - unfold header_parse_store. cbn [og_decls og_objects]. rewrite Q.
    rewrite (find_skip _ pre); [|intros y Iy; apply Np in Iy; now apply N.eqb_neq|now apply N.eqb_eq].
    cbn [ok_or rbind].
    destruct (reads_oset _ _ t He) as (p & Hp & _ & _ & _ & Mp). apply run_reads in Hp. rewrite Hp. cbn [rbind].
    unfold oprops_get.
    destruct (set_get _ _ P_FileIdentityGuid _ _ Mp L1) as (w1 & -> & V1). inversion V1; subst.
    destruct (set_get _ _ P_FileAncestorIdentityGuid _ _ Mp L2) as (w2 & -> & V2). inversion V2; subst.
    destruct (set_get _ _ P_FileNameCrc _ _ Mp L4) as (w4 & -> & V4). inversion V4; subst.
    cbn [opt_map_res header_guid header_u32]. unfold run.
    rewrite <- (app_nil_r (guid_enc (td_identity d))), (guid_roundtrip _ [] B1).
    rewrite <- (app_nil_r (guid_enc (td_ancestor d))), (guid_roundtrip _ [] B2). cbn [rbind ok_or].
    destruct (td_version d) as [v|].
    + destruct L3 as (k3 & L3). destruct (set_get _ _ P_FileLastCodeVersionThatWroteToIt _ _ Mp L3) as (w3 & -> & V3). inversion V3; subst. reflexivity.
    + rewrite (set_get_none _ _ P_FileLastCodeVersionThatWroteToIt Mp L3). reflexivity.
Qed.

(** ** The store *)
Lemma store_described d els D h fuel : holds d els -> holds_store (content els) D -> store_fits D -> (1 <= fuel)%nat ->
  exists st, open_store h fuel d = Ok st /\ store_is D st.
Proof.
  intros (e & t & ft & f & lv & ff & index & schema & -> & H) (ix & items & mf & roots & hc & U & Ix & Im & Rh & Rr & DC & DR & HH & HR & HS & All)
    (FR & DS & FS) Fu. set (rc := td_cell D) in *. cbv zeta in *.
  unfold open_store, run. rewrite (file_reads _ _ _ _ _ _ _ _ t H). cbn [rbind].
  pose proof (packaging_parse_ok _ _ _ (file_reads _ _ _ _ _ _ _ _ t H)) as OK. cbn [pg_package] in OK.
  set (pk := fold_left aelem_step els package_empty) in *.
  destruct (at_index els U _ _ Ix) as (si & Hsi & M). destruct (at_manifest els U _ _ _ Im) as (sm & Hsm & (Ms & Mr)). fold pk in Hsi, Hsm.
  pose proof (one_index els U) as O1. pose proof (one_manifest els U) as O2. fold pk in O1, O2.
  assert (CO : cells_ok si).
  { apply (proj2 OK ix). now apply (alookup_in exguid_eqb exguid_eqb_eq). }
  destruct (held_header els items si h hc D U M DC DR HH) as (hm & gs & g & E1 & E2 & E3 & E4). fold pk in E2.
  destruct (held_space els U items si M DC DR h fuel rc (td_root D) HR FR Fu) as (rm & root & R1 & R2 & R3 & R4 & R5). fold pk in R4.
  assert (RO : forall r x, (forall y, In (r, y) roots <-> y = x) -> alookup exguid_eqb r (sm_roots sm) = Some x).
  { intros r x Hr. rewrite Mr. eapply (last_unique _ _ (r, x)); [now apply Hr| |].
    - cbn. replace (exguid_eqb r r) with true by (symmetry; now apply exguid_eqb_eq). reflexivity.
    - intros [r' y] b Iy. cbn. destruct (exguid_eqb r' r) eqn:Q; [|discriminate]. apply exguid_eqb_eq in Q. subst r'.
      intro Z. injection Z as <-. now apply Hr. }
  assert (SPS : exists sps, parse_spaces h fuel si pk [] [hc; rc] (o_cells h (map snd (si_cells si))) [] = Ok sps).
  { eexists. apply parse_spaces_ok; auto; [apply cells_values; exact CO|]. split; [|reflexivity].
    intros m Im' Sk. apply (cells_values h si CO) in Im'. apply (alookup_nodup cellid_eqb cellid_eqb_eq) in Im'; [|apply CO].
    assert (NSk : ~ (cm_id m = nil_id \/ In (cm_cell m) [hc; rc])) by (intro Z; apply skipped_spec in Z; congruence).
    destruct (cell_indexed items si M _ _ Im') as (Ii & _). apply All in Ii.
    assert (J : In (cm_cell m) (map fst (td_spaces D))) by (cbn in NSk; intuition congruence).
    apply in_map_iff in J as ([c x] & Q & J). cbn in Q. subst c. rewrite Forall_forall in HS, FS.
    destruct (HS _ J) as (_ & _ & Hx). destruct (held_space els U items si M DC DR h fuel _ x Hx (FS _ J) Fu) as (m' & sp & X1 & _ & _ & X4 & _).
    cbn [fst] in X1. rewrite Im' in X1. injection X1 as <-. eauto. }
  destruct SPS as (sps & SPS). pose proof (parse_spaces_spec h fuel si pk _ _ CO SPS) as (_ & LK).
  exists (Store (sm_id sm) (StoreHeader (td_identity D) (td_ancestor D) (td_version D) (td_crc D)) root sps). split.
  - unfold parse_store. cbn [pg_package pg_storage_index]. rewrite (only_index h pk index O1).
    assert (I1 : hd_error (map snd (pk_indexes pk)) = Some si).
    { clear - Hsi O1. destruct (pk_indexes pk) as [|[k v] [|y l]]; cbn in *; [discriminate| |lia]. destruct (exguid_eqb ix k); [exact Hsi|discriminate Hsi]. }
    rewrite I1. cbn [ok_or rbind].
    assert (I2 : find_storage_manifest h pk = Some sm).
    { clear - Hsm O2. unfold find_storage_manifest. pose proof (o_manifests_perm h (map snd (pk_manifests pk))) as P. revert P.
      destruct (pk_manifests pk) as [|[k v] [|y l]]; cbn in *; [discriminate| |lia]. intro P. apply Permutation_length_1_inv in P. rewrite P. cbn.
      destruct (exguid_eqb mf k); [exact Hsm|discriminate Hsm]. }
    rewrite I2. cbn [ok_or rbind]. unfold find_header_cell_id, find_data_root_cell_id, header_cell_root, data_root.
    rewrite (RO _ hc Rh), (RO _ rc Rr). cbn [ok_or rbind]. rewrite E1. cbn [ok_or rbind]. rewrite E2. cbn [rbind]. rewrite E3. cbn [ok_or rbind].
    rewrite E4. cbn [rbind]. unfold parse_object_space at 1. rewrite R1. cbn [ok_or rbind]. rewrite R4. cbn [rbind]. rewrite SPS. reflexivity.
  - unfold store_is. cbn [st_schema st_header st_data_root]. refine (conj Ms (conj eq_refl (conj R5 (conj _ _)))).
    + intros cell x J. rewrite Forall_forall in HS, FS. destruct (HS _ J) as (N1 & N2 & Hx). cbn [fst snd] in *.
      destruct (held_space els U items si M DC DR h fuel _ x Hx (FS _ J) Fu) as (m' & sp & X1 & X2 & X3 & X4 & X5). exists sp. split; [|exact X5].
      unfold object_space. cbn [st_spaces]. apply LK. exists m'. refine (conj X1 (conj X3 (conj _ X4))). cbn. intuition congruence.
    + intros cell sp J. unfold object_space in J. cbn [st_spaces] in J. apply LK in J as (m & X1 & X3 & X4 & _).
      destruct (cell_indexed items si M _ _ X1) as (Ii & Cm). apply All in Ii. cbn in X4. intuition congruence.
Qed.
