(** A short file with a deep and wide document. *)
From Coq Require Import Lia ZifyBool ZifyNat ZifyN.
From Verif Require Import Base BaseProofs Codec SpecCodec CodecProofs CodecRT2 CodecRT3 Package PropSet PropIds SpecPropSet Store Shapes Props Nodes Doc Notebook SpecRefs SpecStore SpecValues SpecNodes SpecDoc
  SpecNotebook SpecValid SpecFile DescProofs DescProofs2 DescProofs3 EncodeProofs WriteNodes WriteProofs WriteProofs2 WriteProofs3 DocProofs4 NotebookProofs2 FileProofs
  ExampleFile AuthorProofs WriteProofs4 DoubleNodes CrowdProofs.
From Verif Require SpecSize.
Local Open Scope N_scope.

(** ** Values *)
Definition v_dword : option sval := Some (SU32 0).
Definition v_byte : option sval := Some (SU8 0).
Definition v_qword : option sval := Some (SU64 0).
Definition v_uuid : option sval := Some (SVec (guid_enc 0)).
Definition v_text (s : list N) : option sval := Some (SVec (u16_bytes (utf16_enc s))).
Definition v_indents : option sval := Some (SVec [0; 0; 0; 0]).
Lemma writes_req {A} (R : pvalue -> A -> Prop) x s : vgood s -> (forall v, val_means s v -> R v x) -> writes (req_rel R x) (Some s).
Proof. intros G H. split; [exact G|]. intros v V. exists v. split; [reflexivity|now apply H]. Qed.
Lemma writes_opt {A} (R : pvalue -> A -> Prop) x s : vgood s -> (forall v, val_means s v -> R v x) -> writes (opt_rel R (Some x)) (Some s).
Proof. intros G H. split; [exact G|]. intros v V. exists x. split; [now apply H|reflexivity]. Qed.
Ltac leaf_of := apply vg_small; cbv beta iota.
Lemma is_dword : writes (req_rel dword 0) v_dword.
Proof. apply writes_req; [leaf_of; reflexivity|]. intros v V. inversion V. reflexivity. Qed.
Lemma is_byte : writes (req_rel byte 0) v_byte.
Proof. apply writes_req; [leaf_of; reflexivity|]. intros v V. inversion V. reflexivity. Qed.
Lemma is_qword : writes (req_rel qword 0) v_qword.
Proof. apply writes_req; [leaf_of; reflexivity|]. intros v V. inversion V. reflexivity. Qed.
Lemma is_uuid : writes (req_rel uuid 0) v_uuid.
Proof.
  apply writes_req; [leaf_of; split; [apply guid_enc_ok|rewrite guid_enc_length; reflexivity]|]. intros v V. inversion V; subst.
  exists (guid_enc 0), []. split; [reflexivity|]. rewrite <- (app_nil_r (guid_enc 0)). now apply guid_roundtrip.
Qed.
Lemma text_means s v : plain s -> val_means (SVec (u16_bytes (utf16_enc s))) v -> text v s.
Proof. intros (P & Z) V. inversion V; subst. eexists. split; [reflexivity|]. rewrite <- (app_nil_r (u16_bytes _)). apply utf16_roundtrip; cbn; auto. Qed.
Lemma text_good s : N.of_nat (length s) < 2 ^ 22 -> vgood (SVec (u16_bytes (utf16_enc s))).
Proof. intro L. leaf_of. split; [apply u16_bytes_ok|]. rewrite u16_bytes_length. pose proof (utf16_enc_length s). lia. Qed.
Lemma is_text : writes (req_rel text []) (v_text []).
Proof. apply writes_req; [now apply text_good|]. intros v V. apply text_means; [split; constructor|exact V]. Qed.
Definition dname : list N := [120].
Lemma dname_plain : plain dname.
Proof. split; [constructor; [|constructor]; cbn; unfold scalar; lia|constructor; [discriminate|constructor]]. Qed.
Lemma is_name : writes (opt_rel text (Some dname)) (v_text dname).
Proof. apply writes_opt; [now apply text_good|]. intros v V. apply text_means; [exact dname_plain|exact V]. Qed.
Lemma is_indents : writes (req_rel indents []) v_indents.
Proof.
  apply writes_req; [leaf_of; split; [repeat (apply bytes_cons; [lia|]); constructor|reflexivity]|]. intros v V. inversion V; subst.
  exists 0, 0, 0. eexists _, _. split; [reflexivity|]. split; [reflexivity|]. exists [], []. split; [reflexivity|]. split; [reflexivity|]. apply (numbers_bytes 4 []); [constructor|lia].
Qed.

(** ** Objects *)
Definition a_group (id : exguid) (l : list exguid) : aobject :=
  AObject id 0x00060019 [(0x14001D7A, fv v_dword); (0x24001C20, frefs l); (0x0C001C03, fv v_byte)] None None.
Definition a_outline (id : exguid) (l : list exguid) : aobject :=
  AObject id 0x0006000C [(0x14001D7A, fv v_dword); (0x24001C20, frefs l); (0x0C001C03, fv v_byte); (0x14001C1C, fv None); (0x14001C1B, fv None);
    (0x14001CDB, fv None); (0x14001CEC, fv None); (0x08001CFF, fv None); (0x08001CBD, fv None); (0x14001C14, fv None); (0x14001C15, fv None);
    (0x14001CCB, fv None); (0x1C001C12, fv v_indents); (0x14001C3E, fv None); (0x14001C84, fv None); (0x08001D0C, fv None); (0x08001CB5, fv None);
    (0x08001CB2, fv (Some (SBool true))); (0x08001CB4, fv None); (0x08001CDE, fv None); (0x08001CF9, fv None); (0x08001C00, fv None)] None None.
Definition a_page (id : exguid) (l : list exguid) : aobject :=
  AObject id 0x0006000B [(0x14001D7A, fv None); (0x1C001D3C, fv None); (0x1C001D75, fv None); (0x24001C20, frefs l); (0x24001D5F, frefs []);
    (0x08001C8E, fv None); (0x14001C01, fv None); (0x14001C02, fv None); (0x14001D0F, fv None); (0x14001D10, fv None); (0x14001C4E, fv None);
    (0x14001C4F, fv None); (0x14001C4C, fv None); (0x14001C4D, fv None); (0x14001C8B, fv None); (0x08001C92, fv None)] None None.
Definition a_meta (id : exguid) : aobject :=
  AObject id 0x00020030 [(0x1C001C30, fv v_uuid); (0x1C001CF3, fv (v_text [])); (0x14001D82, fv None); (0x1400348B, fv None); (0x14001DFF, fv None);
    (0x18001C65, fv v_qword); (0x00001DE9, fv None)] None None.
Definition a_manifest (id page : exguid) : aobject := AObject id 0x00060037 [(0x24001C1F, frefs [page])] None None.
Definition a_name (id : exguid) : aobject :=
  AObject id 0x00020031 [(0x14001D82, fv v_dword); (0x1400348B, fv v_dword); (0x1C00349B, fv (v_text dname)); (0x14001CBE, fv None)] None None.
Definition a_series (id : exguid) (l : list cellid) : aobject :=
  AObject id 0x00060008 [(0x1C001C30, fv v_uuid); (0x2C001D63, fspaces l); (0x24003442, frefs []); (0x18001C65, fv None)] None None.
Definition a_section (id : exguid) (l : list exguid) : aobject :=
  AObject id 0x00060007 [(0x1C001C30, fv v_uuid); (0x24001C20, frefs l); (0x18001C65, fv v_qword)] None None.

Definition d_group (l : list exguid) : outline_group_data := OutlineGroupData 0 l 0.
Definition d_outline (l : list exguid) : outline_data :=
  OutlineData 0 l 0 None None None None false false None None None [] None None false false false false false false false.
Definition d_page (l : list exguid) : page_data := PageData None None None l None false None None None None None None None None PsAuto false.
Definition d_meta : page_meta_data := PageMetaData 0 [] None None 0 0 false.
Definition d_name : section_meta_data := SectionMetaData 0 0 (Some dname) None.
Definition d_series (l : list cellid) : page_series_data := PageSeriesData 0 l [] None.
Definition d_section (l : list exguid) : section_data := SectionData (fst (pcell 0)) 0 l 0.

Ltac slots := first [exact is_dword|exact is_byte|exact is_qword|exact is_uuid|exact is_text|exact is_name|exact is_indents|exact eq_refl].
Lemma g_group cell id l : id_fits id -> ids_ok l -> as_written cell (a_group id l) (fun o => group_object o (d_group l)).
Proof. intros Hi Hl. apply (as_group cell id (d_group l)); [exact Hi|slots|exact Hl|slots]. Qed.
Lemma g_outline cell id l : id_fits id -> ids_ok l -> as_written cell (a_outline id l) (fun o => outline_object o (d_outline l)).
Proof.
  intros Hi Hl. apply (as_outline cell id (d_outline l)); [exact Hi|slots|exact Hl|..]; try slots.
  split; [leaf_of; exact I|]. intros v V. inversion V. reflexivity.
Qed.
Lemma g_page cell id l : id_fits id -> ids_ok l -> as_written cell (a_page id l) (fun o => page_object o (d_page l)).
Proof. intros Hi Hl. apply (as_page cell id (d_page l)); [exact Hi|slots|slots|slots|exact Hl|exact I|..]; slots. Qed.
Lemma g_meta cell id : id_fits id -> as_written cell (a_meta id) (fun o => page_meta o d_meta).
Proof. intros Hi. apply (as_page_meta cell id d_meta); [exact Hi|..]; slots. Qed.
Lemma g_manifest cell id page : id_fits id -> id_fits page -> as_written cell (a_manifest id page) (fun o => manifest_node o page).
Proof. intros Hi Hp. now apply as_manifest. Qed.
Lemma g_name cell id : id_fits id -> as_written cell (a_name id) (fun o => section_meta o d_name).
Proof. intros Hi. apply (as_section_meta cell id d_name); [exact Hi|..]; slots. Qed.
Lemma g_series cell id l : id_fits id -> cells_ok cell l -> as_written cell (a_series id l) (fun o => series_node o (d_series l)).
Proof. intros Hi Hl. apply (as_series cell id (d_series l)); [exact Hi|slots|exact Hl|split; [constructor|reflexivity]|slots]. Qed.
Lemma g_section id l : id_fits id -> ids_ok l -> as_written (pcell 0) (a_section id l) (fun o => section_node o (d_section l)).
Proof. intros Hi Hl. apply (as_section (pcell 0) id (d_section l)); [exact Hi|reflexivity|slots|exact Hl|slots]. Qed.

(** ** The spaces *)
Definition group_at (j : nat) : aobject := a_group (oid j) (match j with O => [] | S i => [oid i; oid i] end).
Definition page_os (k : nat) : list aobject :=
  map group_at (seq 0 (S k)) ++
  [a_outline (oid (k + 1)) [oid k]; a_page (oid (k + 2)) [oid (k + 1)]; a_meta (oid (k + 3)); a_manifest (oid (k + 4)) (oid (k + 2))].
Definition root_os : list aobject := [a_name (oid 0); a_series (oid 1) [pcell 1]; a_section (oid 2) [oid 1]].
Definition page_desc (k : nat) : space_desc := space_of (oid (k + 3), oid (k + 4)) (page_os k).
Definition root_desc : space_desc := space_of (oid 0, oid 2) root_os.
Definition short_store (k : nat) : store_desc := StoreDesc section_schema_ 0 0 None 0 (pcell 0) root_desc [(pcell 1, page_desc k)].

Lemma oid_fits j : N.of_nat j < 2 ^ 32 -> id_fits (oid j).
Proof. intro H. split; cbn; lia. Qed.
Lemma ids_fit l : Forall id_fits l -> (length l <= 2)%nat -> ids_ok l.
Proof. intros F L. split; [exact F|lia]. Qed.
Lemma page_os_length k : length (page_os k) = (k + 5)%nat.
Proof. unfold page_os. rewrite app_length, map_length, seq_length. cbn. lia. Qed.
Lemma page_os_ids k : map ao_id (page_os k) = map oid (seq 0 (length (page_os k))).
Proof.
  rewrite page_os_length. replace (k + 5)%nat with (S k + 4)%nat by lia. rewrite seq_app, map_app. unfold page_os. rewrite map_app. f_equal; [rewrite map_map; reflexivity|].
  change (seq (0 + S k) 4) with [S k; S (S k); S (S (S k)); S (S (S (S k)))].
  cbn [map ao_id a_outline a_page a_meta a_manifest]. repeat f_equal; lia.
Qed.
Section Written.
  Variable k : nat.
  Hypothesis bound : N.of_nat k < 2 ^ 31.
  Lemma group_written j : (j <= k)%nat -> as_written (pcell 1) (group_at j) (fun o => group_object o (d_group (match j with O => [] | S i => [oid i; oid i] end))).
  Proof.
    intro L. apply g_group; [apply oid_fits; lia|]. destruct j as [|i]; [apply ids_fit; [constructor|cbn; lia]|].
    apply ids_fit; [|cbn; lia]. repeat constructor; cbn; lia.
  Qed.
  Lemma outline_written : as_written (pcell 1) (a_outline (oid (k + 1)) [oid k]) (fun o => outline_object o (d_outline [oid k])).
  Proof. apply g_outline; [apply oid_fits; lia|]. apply ids_fit; [|cbn; lia]. repeat constructor; cbn; lia. Qed.
  Lemma page_written : as_written (pcell 1) (a_page (oid (k + 2)) [oid (k + 1)]) (fun o => page_object o (d_page [oid (k + 1)])).
  Proof. apply g_page; [apply oid_fits; lia|]. apply ids_fit; [|cbn; lia]. repeat constructor; cbn; lia. Qed.
  Lemma meta_written : as_written (pcell 1) (a_meta (oid (k + 3))) (fun o => page_meta o d_meta).
  Proof. apply g_meta, oid_fits. lia. Qed.
  Lemma manifest_written : as_written (pcell 1) (a_manifest (oid (k + 4)) (oid (k + 2))) (fun o => manifest_node o (oid (k + 2))).
  Proof. apply g_manifest; apply oid_fits; lia. Qed.
  Lemma name_written : as_written (pcell 0) (a_name (oid 0)) (fun o => section_meta o d_name).
  Proof. apply g_name, oid_fits. reflexivity. Qed.
  Lemma series_written : as_written (pcell 0) (a_series (oid 1) [pcell 1]) (fun o => series_node o (d_series [pcell 1])).
  Proof.
    apply g_series; [apply oid_fits; reflexivity|]. refine (conj _ (conj _ _)); [|constructor; [reflexivity|constructor]|reflexivity].
    constructor; [now apply pcell_fits|constructor].
  Qed.
  Lemma section_written_at : as_written (pcell 0) (a_section (oid 2) [oid 1]) (fun o => section_node o (d_section [oid 1])).
  Proof. apply g_section; [apply oid_fits; reflexivity|]. apply ids_fit; [|cbn; lia]. repeat constructor; cbn; lia. Qed.

  Lemma page_good : Forall ao_good (page_os k).
  Proof.
    unfold page_os. apply Forall_app. split.
    - apply Forall_map, Forall_forall. intros j I. apply in_seq in I. exact (proj1 (group_written j ltac:(lia))).
    - repeat (apply Forall_cons; [first [exact (proj1 outline_written)|exact (proj1 page_written)|exact (proj1 meta_written)|exact (proj1 manifest_written)]|]). constructor.
  Qed.
  Lemma root_good : Forall ao_good root_os.
  Proof. repeat (apply Forall_cons; [first [exact (proj1 name_written)|exact (proj1 series_written)|exact (proj1 section_written_at)]|]). constructor. Qed.

  Lemma short_fits : store_fits (short_store k) /\ store_in_range (short_store k).
  Proof.
    destruct (space_of_good (oid (k + 3), oid (k + 4)) (page_os k) 0 (page_os_ids k) page_good) as (F1 & R1); [rewrite page_os_length; lia|apply oid_fits; lia..|].
    destruct (space_of_good (oid 0, oid 2) root_os 0 eq_refl root_good) as (F2 & R2); [reflexivity|apply oid_fits; reflexivity..|].
    split.
    - refine (conj F2 (conj _ _)); cbn [short_store td_cell td_spaces map fst].
      + apply NoDup_cons; [|apply NoDup_cons; [intros []|apply NoDup_nil]]. intros [H|[]]. apply pcell_inj in H. discriminate H.
      + constructor; [exact F1|constructor].
    - refine (conj eq_refl (conj eq_refl (conj eq_refl (conj I (conj eq_refl (conj _ (conj R2 (conj _ eq_refl)))))))).
      + now apply pcell_fits.
      + constructor; [split; [now apply pcell_fits|exact R1]|constructor].
  Qed.

  Lemma short_items sp : present (pcell 1) sp (page_os k) -> forall j, (j <= k)%nat -> item_is sp (oid j) (doubled j).
  Proof.
    intros P. assert (G : forall j, (j <= k)%nat -> found sp (oid j) (fun o => group_object o (d_group (match j with O => [] | S i => [oid i; oid i] end)))).
    { intros j L. destruct (P (group_at j)) as (o & Eo & Ho).
      - unfold page_os. apply in_or_app. left. apply in_map, in_seq. lia.
      - exists o. split; [exact Eo|]. apply (proj2 (group_written j L)). exact Ho. }
    induction j as [|j IH]; intro L; destruct (G _ L) as (o & Eo & Ho).
    - eapply is_group; [exact Eo|exact Ho|reflexivity|constructor].
    - eapply is_group; [exact Eo|exact Ho|reflexivity|]. repeat (constructor; [apply IH; lia|]). constructor.
  Qed.
  Lemma short_page sp : space_is (pcell 1) (page_desc k) sp -> page_is sp (doubled_page k).
  Proof.
    intros S. destruct (space_of_present _ _ _ _ S) as (P & M & C). cbn [fst snd] in M, C.
    assert (F : forall a Q, as_written (pcell 1) a Q -> In a (page_os k) -> found sp (ao_id a) Q).
    { intros a Q (_ & H) I. destruct (P a I) as (o & Eo & Ho). exists o. split; [exact Eo|now apply H]. }
    pose proof (F _ _ outline_written) as Fo. pose proof (F _ _ page_written) as Fp. pose proof (F _ _ meta_written) as Fm. pose proof (F _ _ manifest_written) as Fc.
    unfold page_os in Fo, Fp, Fm, Fc. cbn [ao_id a_outline a_page a_meta a_manifest] in Fo, Fp, Fm, Fc.
    specialize (Fo ltac:(apply in_or_app; right; cbn; auto)). specialize (Fp ltac:(apply in_or_app; right; cbn; auto)).
    specialize (Fm ltac:(apply in_or_app; right; cbn; auto)). specialize (Fc ltac:(apply in_or_app; right; cbn; auto)).
    exists (oid (k + 3)), d_meta, (oid (k + 4)), (oid (k + 2)), (d_page [oid (k + 1)]).
    refine (conj M (conj Fm (conj C (conj Fc (conj Fp (conj eq_refl (conj eq_refl (conj eq_refl (conj _ _))))))))); [constructor|].
    constructor; [|constructor]. apply pc_outline. destruct Fo as (o & Eo & Ho). exists o. split; [exact Eo|]. eexists. split; [exact Ho|].
    refine (conj eq_refl (conj eq_refl (conj eq_refl (conj eq_refl (conj eq_refl (conj eq_refl (conj eq_refl (conj eq_refl (conj eq_refl (conj eq_refl
        (conj eq_refl (conj eq_refl _)))))))))))). constructor; [|constructor]. now apply (short_items sp P).
  Qed.
  Lemma short_section st file : store_is (short_store k) st -> section_is st file (doubled_section k).
  Proof.
    intros (_ & _ & S1 & S2 & _). cbn [short_store td_cell td_root td_spaces] in *. destruct (space_of_present _ _ _ _ S1) as (P & M & C). cbn [fst snd] in M, C.
    assert (F : forall a Q, as_written (pcell 0) a Q -> In a root_os -> found (st_data_root st) (ao_id a) Q).
    { intros a Q (_ & H) I. destruct (P a I) as (o & Eo & Ho). exists o. split; [exact Eo|now apply H]. }
    pose proof (F _ _ name_written ltac:(cbn; auto)) as Fn. pose proof (F _ _ series_written ltac:(cbn; auto)) as Fs. pose proof (F _ _ section_written_at ltac:(cbn; auto)) as Fc.
    cbn [ao_id a_name a_series a_section] in Fn, Fs, Fc.
    exists (oid 0), d_name, (oid 2), (d_section [oid 1]). refine (conj M (conj Fn (conj C (conj Fc (conj _ (conj eq_refl _)))))).
    - split; [exists 0%nat; reflexivity|]. intros [|a [|b p]]; discriminate.
    - constructor; [|constructor]. destruct Fs as (o & Eo & Ho). exists o. split; [exact Eo|]. eexists. split; [exact Ho|].
      constructor; [|constructor]. destruct (S2 (pcell 1) (page_desc k) (or_introl eq_refl)) as (sp & Es & Hs). exists sp. split; [exact Es|now apply short_page].
  Qed.
End Written.

(** ** The file *)
Definition pspace_for (cell : cellid) (roots : exguid * exguid) (os : list aobject) : pspace :=
  (cell, map (fun r => (role_id (fst r), snd r)) (sd_roots (space_of roots os)), map (fun a => (describe a, w_oset (ao_set a))) os).
Lemma prepared_for cell roots os n : cell_fits cell -> map ao_id os = map oid (seq n (length os)) -> Forall ao_good os -> N.of_nat (length os) < 2 ^ 32 ->
  id_fits (fst roots) -> id_fits (snd roots) -> prepared (cell, space_of roots os) (pspace_for cell roots os).
Proof.
  intros Hc E G L R1 R2. destruct (space_of_good roots os n E G L R1 R2) as (F & (Q1 & Q2 & Q3)).
  refine (conj eq_refl (conj eq_refl (conj _ (conj _ _)))); cbn [pspace_for fst snd].
  - rewrite map_map. reflexivity.
  - apply Forall_map. eapply Forall_impl; [|exact G]. intros a Ha. cbn [fst snd describe od_kind od_set]. split; [apply Ha|]. now apply described_encodes.
  - refine (conj Hc (conj _ (conj _ _))).
    + cbn [space_of sd_roots map fst snd]. apply Forall_cons; [split; [split; reflexivity|exact R1]|]. apply Forall_cons; [split; [split; reflexivity|exact R2]|constructor].
    + apply Forall_map. eapply Forall_impl; [|exact G]. intros a Ha. destruct (described_range a Ha) as ((D1 & D2 & D3 & D4 & D5 & D6) & F1 & F2).
      destruct (described_encodes a Ha) as (X1 & X2 & X3). pose proof (oset_counts _ _ X1) as (C1 & C2).
      refine (conj D1 (conj (conj X2 X3) (conj D4 (conj _ (conj D5 (conj _ D6)))))); cbn [fst].
      * rewrite F1. cbn [describe od_set]. lia.
      * rewrite F2. cbn [describe od_set]. lia.
    + cbn [pspace_for snd]. rewrite map_length. exact L.
Qed.

Local Open Scope nat_scope.
Lemma data_len g c b : length (w_data (DataObject g c b)) <= 29 + 21 * length g + 42 * length c + length b.
Proof.
  cbn [w_data]. unfold w_array. rewrite !app_length, h16_len, single_len. pose proof (compact_len (N.of_nat (length g))). pose proof (compact_len (N.of_nat (length c))).
  pose proof (compact_len (N.of_nat (length b))). pose proof (flat_len w_exguid 21 g (fun x _ => exguid_len x)). pose proof (flat_len w_cellid 42 c (fun x _ => cellid_len x)). lia.
Qed.
From Verif Require Import SpecPackage.
(** What an object without file data takes. *)
Definition object_bytes (p : object_desc * list N) : nat := 225 + 21 * length (od_refs (fst p)) + 42 * length (od_cells (fst p)) + length (snd p).
Fixpoint sum (l : list nat) : nat := match l with [] => 0 | n :: r => n + sum r end.
Lemma entries_sum k l : (forall p, In p l -> od_file (fst p) = None) -> forall j,
  length (flat_map w_decl (map fst (w_entries k j l))) + length (flat_map w_data (map snd (w_entries k j l))) <= sum (map object_bytes l) /\ w_blobs k j l = [].
Proof.
  induction l as [|[d e] l IH]; intros H j; cbn [w_entries w_blobs map sum]; [split; [cbn; lia|reflexivity]|].
  pose proof (H (d, e) (or_introl eq_refl)) as F. cbn [fst] in F. rewrite F. cbn [app]. destruct (IH (fun p I => H p (or_intror I)) (S j)) as (I1 & I2).
  split; [|exact I2]. cbn [map flat_map fst snd]. rewrite !app_length. unfold object_bytes at 1. cbn [fst snd].
  pose proof (decl_len (DeclObject (od_id d) 4 0 0 0)%N). pose proof (plain_len (le_bytes 4 (od_kind d))) as P. rewrite le_bytes_length in P.
  pose proof (decl_len (DeclObject (od_id d) 1 0 0 0)%N). pose proof (data_len (od_refs d) (od_cells d) e). lia.
Qed.
Lemma space_sum k s : (forall p, In p (snd s) -> od_file (fst p) = None) ->
  length (flat_map w_elem (w_elems (w_space k s))) <= 400 + 44 * length (snd (fst s)) + sum (map object_bytes (snd s)).
Proof.
  intros H. unfold w_space. destruct (entries_sum k (snd s) H 0) as (E & B). rewrite B. cbn [w_elems map flat_map fst snd].
  pose proof (elem_len (w_id k 0, ElCell (w_id k 0)) 23 ltac:(cbn [snd w_body]; lens; lia)) as X1.
  set (rv := map _ (snd (fst s)) ++ _).
  assert (RL : length (flat_map w_rev_item rv) <= 44 * length (snd (fst s)) + 23).
  { unfold rv. rewrite flat_map_app, app_length. pose proof (flat_len w_rev_item 44 (map (fun r => RvRoot (fst r) (snd r)) (snd (fst s)))) as Y. rewrite map_length in Y.
    assert (Z : length (flat_map w_rev_item [RvGroup (w_id k 0)]) <= 23) by (cbn [flat_map w_rev_item]; lens; lia).
    assert (forall x, In x (map (fun r => RvRoot (fst r) (snd r)) (snd (fst s))) -> length (w_rev_item x) <= 44).
    { intros x I. apply in_map_iff in I as (r & <- & _). cbn [w_rev_item]. lens. lia. }
    specialize (Y H0). lia. }
  pose proof (elem_len (w_id k 0, ElRevision (w_id k 0) nil_id rv) (44 * length (snd (fst s)) + 80)) as X2. cbn [fst snd] in X2.
  assert (R2 : length (w_body (ElRevision (w_id k 0) nil_id rv)) <= 44 * length (snd (fst s)) + 80) by (cbn [w_body]; lens; lia). specialize (X2 R2).
  pose proof (elem_len (w_id k 0, ElGroup (map fst (w_entries k 0 (snd s))) (map snd (w_entries k 0 (snd s)))) (sum (map object_bytes (snd s)) + 6)) as X3. cbn [fst snd] in X3.
  assert (R3 : length (w_body (ElGroup (map fst (w_entries k 0 (snd s))) (map snd (w_entries k 0 (snd s))))) <= sum (map object_bytes (snd s)) + 6) by (cbn [w_body]; lens; lia).
  specialize (X3 R3). cbn [fst snd] in X1. rewrite !app_length. cbn [length]. lia.
Qed.
Lemma sum_app l m : sum (l ++ m) = sum l + sum m.
Proof. induction l as [|n l IH]; [reflexivity|]. cbn [app sum]. rewrite IH. lia. Qed.
Lemma sum_le l n : (forall x, In x l -> x <= n) -> sum l <= n * length l.
Proof. induction l as [|x l IH]; intro H; [cbn; lia|]. cbn [sum length]. pose proof (H x (or_introl eq_refl)). specialize (IH (fun y I => H y (or_intror I))). lia. Qed.

Definition page_ps (k : nat) : pspace := pspace_for (pcell 1) (oid (k + 3), oid (k + 4)) (page_os k).
Definition root_ps : pspace := pspace_for (pcell 0) (oid 0, oid 2) root_os.
Definition short_file (k : nat) (hc : cellid) : list N :=
  w_file 0x109ADD3F911B49F5A5D01791EDC8AED8%N (w_id 0 0) (w_elems (w_store section_schema_ hc (pcell 0)
    [(hc, [], [(header_desc (short_store k), w_oset (header_set (short_store k)))]); root_ps; page_ps k])).
Lemma no_file os : Forall (fun a => ao_file a = None) os -> forall p, In p (map (fun a => (describe a, w_oset (ao_set a))) os) -> od_file (fst p) = None.
Proof. intros F p I. apply in_map_iff in I as (a & <- & I). rewrite Forall_forall in F. exact (F a I). Qed.
Lemma group_bytes j : object_bytes (describe (group_at j), w_oset (ao_set (group_at j))) <= 320.
Proof. unfold object_bytes. cbn [fst snd]. destruct j as [|i]; cbn; lia. Qed.
Lemma page_ps_len k : length (flat_map w_elem (w_elems (w_space 2 (page_ps k)))) <= 320 * k + 1960.
Proof.
  pose proof (space_sum 2 (page_ps k)) as Sp. cbn [page_ps pspace_for fst snd space_of sd_roots map length] in Sp.
  specialize (Sp (no_file (page_os k) ltac:(unfold page_os; apply Forall_app; split; [apply Forall_map, Forall_forall; reflexivity|repeat constructor]))).
  etransitivity; [exact Sp|]. unfold page_os. rewrite !map_app, sum_app.
  assert (G : sum (map object_bytes (map (fun a => (describe a, w_oset (ao_set a))) (map group_at (seq 0 (S k))))) <= 320 * S k).
  { etransitivity; [apply (sum_le _ 320)|rewrite !map_length, seq_length; lia]. intros x I. apply in_map_iff in I as (p & <- & I). apply in_map_iff in I as (a & <- & I).
    apply in_map_iff in I as (j & <- & _). apply group_bytes. }
  match goal with |- context[sum (map object_bytes (map ?f [?a; ?b; ?c; ?d]))] => assert (T : sum (map object_bytes (map f [a; b; c; d])) <= 1150) end; [|lia].
  unfold object_bytes. cbn. lia.
Qed.
Lemma short_length k hc : (N.of_nat k < 2 ^ 31)%N -> length (short_file k hc) <= 320 * k + 5000.
Proof.
  intro L. destruct (header_encodes (short_store k) (proj2 (short_fits k L))) as (_ & HL).
  unfold short_file, w_file. rewrite !app_length. unfold w_store, w_elems. cbn [map flat_map fst snd w_spaces]. rewrite app_nil_r, !map_app, !flat_map_app.
  fold (w_elems (w_space 0 (hc, [], [(header_desc (short_store k), w_oset (header_set (short_store k)))]))). fold (w_elems (w_space 1 root_ps)). fold (w_elems (w_space 2 (page_ps k))).
  rewrite !app_length.
  pose proof (w_space_len 0 (hc, [], [(header_desc (short_store k), w_oset (header_set (short_store k)))]) 100) as A. cbn [fst snd] in A.
  specialize (A ltac:(intros d e [H|[]]; injection H as <- <-; repeat split; assumption) eq_refl). cbn [length] in A.
  pose proof (page_ps_len k) as B.
  assert (C : length (flat_map w_elem (w_elems (w_space 1 root_ps))) <= 1550).
  { pose proof (space_sum 1 root_ps) as S. cbn [root_ps pspace_for fst snd space_of sd_roots map length] in S. specialize (S (no_file root_os ltac:(repeat constructor))).
    etransitivity; [exact S|]. unfold object_bytes. cbn. lia. }
  set (l := [(hc, [], [(header_desc (short_store k), w_oset (header_set (short_store k)))]); root_ps; page_ps k]).
  assert (X : length (w_body (ElIndex (w_items 0 l))) <= 270).
  { cbn [w_body]. etransitivity; [apply (flat_len _ 90); intros x _; destruct x; cbn [w_index_item]; lens; lia|]. unfold l. cbn [w_items length]. lia. }
  apply (elem_len (w_id 0 0, ElIndex (w_items 0 l))) in X. cbn [fst snd] in X.
  pose proof (elem_len (w_id 0 0, ElManifest section_schema_ [(ExGuid 0x1A5A319CC26B41AAB9C59BD8C44E07D4 1, hc); (ExGuid 0x84DEFAB9AAA34A0DA3A8520C77AC7073 2, pcell 0)]%N) 160
    ltac:(cbn [snd w_body flat_map]; lens; lia)) as Y. cbn [fst snd] in Y.
  rewrite !guid_enc_length, le_bytes_length, h32_len, h16_len, fin16_len. pose proof (exguid_len (w_id 0 0)). cbn [w_fin8 length].
  fold l. lia.
Qed.

Lemma short_written k : (N.of_nat k < 2 ^ 31)%N -> exists d, bytes_ok d /\ length d <= 320 * k + 5000 /\ forall h, exists st, open_store h 1 d = Ok st /\
  (forall cell sp l, object_space st cell = Some sp -> NoDup l -> (forall x, In x l -> exists o, get_object sp x = Some o) -> length l <= k + 5) /\
  forall file, exists f, forall fuel, f <= fuel -> parse_section_buffer h fuel d file = Ok (doubled_section k).
Proof.
  intros L. destruct (short_fits k L) as (F & R).
  assert (P : Forall2 prepared ((pcell 0, root_desc) :: [(pcell 1, page_desc k)]) [root_ps; page_ps k]).
  { constructor; [|constructor; [|constructor]].
    - apply (prepared_for (pcell 0) (oid 0, oid 2) root_os 0); [now apply pcell_fits|reflexivity|exact (root_good k L)|reflexivity|apply oid_fits; reflexivity..].
    - apply (prepared_for (pcell 1) (oid (k + 3), oid (k + 4)) (page_os k) 0); [now apply pcell_fits|apply page_os_ids|exact (page_good k L)| |apply oid_fits; lia..].
      rewrite page_os_length. lia. }
  destruct (store_author_with (short_store k) _ F R P) as (hc & els & B & Hd & Hs). exists (short_file k hc). split; [exact B|]. split; [now apply short_length|].
  intros h. destruct (store_described _ els (short_store k) h 1 Hd Hs F (le_n _)) as (st & E & S1).
  exists st. split; [exact E|]. split.
  - intros cell sp l Esp Nl Hl. destruct S1 as (_ & _ & _ & S1 & S2). pose proof (S2 _ _ Esp) as I. cbn [short_store td_spaces map fst] in I. destruct I as [<-|[]].
    destruct (S1 _ _ (or_introl eq_refl)) as (sp' & E' & _ & _ & _ & _ & O). rewrite Esp in E'. injection E' as <-.
    pose proof (page_os_length k) as Lo. rewrite <- Lo, <- (map_length ao_id (page_os k)).
    apply NoDup_incl_length; [exact Nl|]. intros y Iy. destruct (Hl y Iy) as (o & Eo). pose proof (O y o Eo) as Q.
    unfold page_desc, space_of in Q. cbn [sd_objects] in Q. rewrite map_map in Q. exact Q.
  - intros file. pose proof (short_section k L st file S1) as Y. apply section_settles in Y as (f & K). exists (1 + f). intros fuel Lf. unfold parse_section_buffer.
    rewrite (open_mono h 1 fuel _ st) by (try exact E; lia). cbn [rbind]. rewrite (proj1 S1). change (td_schema (short_store k) =? section_schema)%N with true. cbn iota.
    apply K. lia.
Qed.

Lemma doubled_grows k : (N.of_nat k < 2 ^ 31)%N ->
  exists d, bytes_ok d /\ length d <= 320 * k + 5000 /\ forall h, exists st s, open_store h 1 d = Ok st /\
    (forall cell sp n, object_space st cell = Some sp -> SpecSize.has_objects sp n -> n <= k + 5) /\
    (forall file, exists f, forall fuel, f <= fuel -> parse_section_buffer h fuel d file = Ok s) /\
    exists ps p, In ps (se_page_series s) /\ In p ps /\ 2 ^ k <= SpecSize.page_size p.
Proof.
  intro L. destruct (short_written k L) as (d & B & Ln & H). exists d. split; [exact B|]. split; [exact Ln|]. intro h. destruct (H h) as (st & E & O & P).
  exists st, (doubled_section k). refine (conj E (conj _ (conj P _))).
  - intros cell sp n Es (l & Nl & Hl & Ll). eapply Nat.le_trans; [exact Ll|]. exact (O cell sp l Es Nl Hl).
  - eexists [_], _. split; [left; reflexivity|]. split; [left; reflexivity|].
    pose proof (doubled_size k). cbn [doubled_page SpecSize.page_size pg_title pg_contents SpecSize.total SpecSize.page_content_size SpecSize.outline_size doubled_outline ol_items].
    unfold SpecSize.page_size, SpecSize.page_content_size, SpecSize.outline_size. cbn [doubled_page pg_title pg_contents SpecSize.total doubled_outline ol_items]. lia.
Qed.
