(** Files with the same content give the same answers. *)
From Coq Require Import Lia ZifyBool ZifyNat ZifyN Permutation.
From Verif Require Import Base BaseProofs Codec Package SpecPackage PackageRT SpecAccept AcceptProofs PropSet Store
  Shapes Props Nodes Doc Notebook SpecSame.

(** ** Stores depend on the package through its finders *)
Record agree (pk pk' : package) : Prop := {
  ag_ix : pk_indexes pk = pk_indexes pk';
  ag_mf : pk_manifests pk = pk_manifests pk';
  ag_ce : forall id, alookup exguid_eqb id (pk_cells pk) = alookup exguid_eqb id (pk_cells pk');
  ag_re : forall id, alookup exguid_eqb id (pk_revisions pk) = alookup exguid_eqb id (pk_revisions pk');
  ag_gr : forall id, alookup exguid_eqb id (pk_groups pk) = alookup exguid_eqb id (pk_groups pk');
  ag_bl : forall id, alookup exguid_eqb id (pk_blobs pk) = alookup exguid_eqb id (pk_blobs pk') }.

Lemma rbind_ext {A B} (r : res A) (f g : A -> res B) : (forall a, f a = g a) -> rbind r f = rbind r g.
Proof. intro H. destruct r; cbn; auto. Qed.

Lemma map_res_ext {A B} (f g : A -> res B) l : (forall a, f a = g a) -> map_res f l = map_res g l.
Proof. intro H. induction l as [|a l IH]; cbn; [reflexivity|]. now rewrite H, IH. Qed.

Section Agree.
  Context (pk pk' : package) (A : agree pk pk').

  Lemma ag_object o c s g : object_parse o c s g pk = object_parse o c s g pk'.
  Proof.
    unfold object_parse. do 4 (apply rbind_ext; intro). apply rbind_ext. intros [[? ?] ?].
    do 2 (apply rbind_ext; intro). unfold find_blob.
    destruct a4 as [b|]; cbn [opt_map_res]; [now rewrite (ag_bl _ _ A)|reflexivity].
  Qed.

  Lemma ag_group_objects c s g d l : forall os,
    group_objects pk c s g d l os = group_objects pk' c s g d l os.
  Proof.
    induction l as [|i l IH]; intro os; cbn [group_objects]; [reflexivity|].
    rewrite ag_object. destruct (amember _ _ _); [apply IH|]. destruct (negb _); [reflexivity|].
    apply rbind_ext. intro. apply IH.
  Qed.

  Lemma ag_groups c s l : forall os, parse_groups pk c s l os = parse_groups pk' c s l os.
  Proof.
    induction l as [|i l IH]; intro os; cbn [parse_groups]; [reflexivity|].
    unfold parse_group, find_object_group. rewrite (ag_gr _ _ A).
    destruct (alookup _ _ _); cbn [ok_or rbind]; [|reflexivity].
    rewrite ag_group_objects. apply rbind_ext. intro. apply IH.
  Qed.

  Lemma ag_resolve si i : resolve_revision_manifest_id pk si i = resolve_revision_manifest_id pk' si i.
  Proof. unfold resolve_revision_manifest_id, find_revision_manifest. now rewrite (ag_re _ _ A). Qed.

  Lemma ag_resolve_cell si i :
    resolve_cell_revision_manifest_id pk si i = resolve_cell_revision_manifest_id pk' si i.
  Proof.
    unfold resolve_cell_revision_manifest_id, find_cell_revision_id. rewrite (ag_ce _ _ A), ag_resolve.
    destruct (alookup _ _ _); [now rewrite ag_resolve|reflexivity].
  Qed.

  Lemma ag_revision i c s si ca os rs :
    revision_parse i c s si pk ca os rs = revision_parse i c s si pk' ca os rs.
  Proof.
    unfold revision_parse, find_revision_manifest. rewrite (ag_re _ _ A).
    apply rbind_ext. intro rm.
    destruct (exguid_as_option _) as [b|]; cbn [opt_map_res]; rewrite ?ag_resolve.
    - apply rbind_ext. intro. destruct (alookup cellid_eqb _ _); [reflexivity|]. apply rbind_ext. intro.
      now rewrite ag_groups.
    - cbn [rbind]. destruct (alookup cellid_eqb _ _); [reflexivity|]. apply rbind_ext. intro.
      now rewrite ag_groups.
  Qed.

  Lemma ag_walk fuel c s si ca : forall i os rs,
    revision_walk fuel c s si pk ca i os rs = revision_walk fuel c s si pk' ca i os rs.
  Proof.
    induction fuel as [|f IH]; intros [i|] os rs; cbn [revision_walk]; try reflexivity.
    rewrite ag_revision. apply rbind_ext. intros [[? ?] ?]. apply IH.
  Qed.

  Lemma ag_space h fuel m si ca : space_parse h fuel m si pk ca = space_parse h fuel m si pk' ca.
  Proof.
    unfold space_parse, find_cell_revision_id. rewrite (ag_ce _ _ A), ag_resolve_cell.
    destruct (or_else _ _); [|reflexivity]. now rewrite ag_walk.
  Qed.

  Lemma ag_space_at h fuel c si ca :
    parse_object_space h fuel c si pk ca = parse_object_space h fuel c si pk' ca.
  Proof. unfold parse_object_space. apply rbind_ext. intro. apply ag_space. Qed.

  Lemma ag_spaces h fuel si ca done ms : forall sp,
    parse_spaces h fuel si pk ca done ms sp = parse_spaces h fuel si pk' ca done ms sp.
  Proof.
    induction ms as [|m ms IH]; intro sp; cbn [parse_spaces]; [reflexivity|].
    rewrite ag_space_at, !IH. destruct (exguid_is_nil _); [reflexivity|]. destruct (existsb _ _); [reflexivity|].
    apply rbind_ext. intros []. apply IH.
  Qed.

  Lemma ag_find_objects h c si : find_objects h pk c si = find_objects h pk' c si.
  Proof.
    unfold find_objects, find_revision_manifest. rewrite ag_resolve_cell. apply rbind_ext. intro.
    rewrite (ag_re _ _ A). apply rbind_ext. intro. apply map_res_ext. intro.
    unfold find_object_group. now rewrite (ag_gr _ _ A).
  Qed.
End Agree.

(** The identifier of the index does not matter when there is at most one. *)
Lemma only_index h pk i : (length (pk_indexes pk) <= 1)%nat ->
  or_else (find_storage_index_by_id pk i) (find_storage_index h pk) = hd_error (map snd (pk_indexes pk)).
Proof.
  unfold find_storage_index_by_id, find_storage_index.
  pose proof (o_indexes_perm h (map snd (pk_indexes pk))) as P. revert P.
  destruct (pk_indexes pk) as [|[k v] [|y l]]; cbn [map length]; intros P L; [| |lia].
  - apply Permutation_nil in P. now rewrite P.
  - apply Permutation_length_1_inv in P. rewrite P. cbn. destruct (exguid_eqb _ _); reflexivity.
Qed.

Lemma store_agree h fuel pg pg' : agree (pg_package pg) (pg_package pg') ->
  pg_storage_index pg = pg_storage_index pg' \/ (length (pk_indexes (pg_package pg)) <= 1)%nat ->
  parse_store h fuel pg = parse_store h fuel pg'.
Proof.
  intros A I. unfold parse_store.
  assert (E : or_else (find_storage_index_by_id (pg_package pg) (pg_storage_index pg)) (find_storage_index h (pg_package pg))
            = or_else (find_storage_index_by_id (pg_package pg') (pg_storage_index pg')) (find_storage_index h (pg_package pg'))).
  { destruct I as [I|I].
    - rewrite I. unfold find_storage_index_by_id, find_storage_index. now rewrite (ag_ix _ _ A).
    - rewrite !only_index; rewrite <- ?(ag_ix _ _ A); auto. }
  rewrite E. apply rbind_ext. intro si. unfold find_storage_manifest. rewrite (ag_mf _ _ A).
  do 3 (apply rbind_ext; intro). rewrite (ag_find_objects _ _ A).
  do 4 (apply rbind_ext; intro). rewrite (ag_space_at _ _ A). apply rbind_ext. intros []. now rewrite (ag_spaces _ _ A).
Qed.

(** ** Packages of the same content agree *)
Lemma last_for_in {A B} (sel : A -> option B) l b :
  last_for sel l = Some b -> exists x, In x l /\ sel x = Some b.
Proof.
  induction l as [|x l IH]; cbn; [discriminate|].
  destruct (last_for sel l) as [c|].
  - intro H. destruct (IH H) as (y & ? & ?). eauto.
  - eauto.
Qed.

Lemma last_for_none {A B} (sel : A -> option B) l x : last_for sel l = None -> In x l -> sel x = None.
Proof.
  induction l as [|y l IH]; cbn; [contradiction|].
  destruct (last_for sel l); [discriminate|]. intros H [->|K]; auto.
Qed.

Lemma last_for_perm {A B} (sel : A -> option B) l l' :
  (forall x y, In x l -> In y l -> sel x <> None -> sel y <> None -> sel x = sel y) ->
  Permutation l l' -> last_for sel l = last_for sel l'.
Proof.
  intros U P. destruct (last_for sel l) as [b|] eqn:E, (last_for sel l') as [c|] eqn:E'; auto.
  - apply last_for_in in E as (x & I1 & S1). apply last_for_in in E' as (y & I2 & S2).
    apply (Permutation_in _ (Permutation_sym P)) in I2. rewrite <- S1, <- S2. apply U; congruence.
  - apply last_for_in in E as (x & I1 & S1). apply (Permutation_in _ P) in I1.
    pose proof (last_for_none _ _ _ E' I1). congruence.
  - apply last_for_in in E' as (x & I1 & S1). apply (Permutation_in _ (Permutation_sym P)) in I1.
    pose proof (last_for_none _ _ _ E I1). congruence.
Qed.

Lemma last_for_map {A B C} (g : A -> B) (sel : B -> option C) l :
  last_for sel (map g l) = last_for (fun x => sel (g x)) l.
Proof. induction l as [|x l IH]; cbn; [reflexivity|]. now rewrite IH. Qed.

Lemma nodup_key {A B} (key : A -> B) l x y : NoDup (map key l) -> In x l -> In y l -> key x = key y -> x = y.
Proof.
  induction l as [|z l IH]; cbn; [contradiction|]. intros D. inversion D as [|? ? N D']; subst.
  intros [->|Hx] [->|Hy] E; auto.
  - elim N. rewrite E. now apply in_map.
  - elim N. rewrite <- E. now apply in_map.
Qed.

Definition pair_of (x : elem) : exguid * element := (el_id x, el_content x).

(** A map filled with the elements of one kind. *)
Section Kind.
  Context {V : Type} (pi : package -> amap exguid V) (val : element -> option V) (k : N).
  Context (H0 : pi package_empty = [])
          (HS : forall p x, pi (elem_step p x) =
             match val (el_content x) with Some v => ins (el_id x) v (pi p) | None => pi p end)
          (HK : forall x, val x <> None -> kind x = k) (HN : forall x, kind x = k -> val x <> None).

  Lemma kind_lookup els els' id :
    NoDup (map (fun x => (fst x, kind (snd x))) (map pair_of els)) ->
    Permutation (map pair_of els) (map pair_of els') ->
    alookup exguid_eqb id (pi (fold_left elem_step els package_empty)) =
    alookup exguid_eqb id (pi (fold_left elem_step els' package_empty)).
  Proof.
    intros D P. rewrite !(package_lookup pi val) by auto.
    set (sel := fun p : exguid * element => if exguid_eqb (fst p) id then val (snd p) else None).
    rewrite !(last_for_ext (of_elem val id) (fun x => sel (pair_of x))) by reflexivity.
    rewrite <- !(last_for_map pair_of sel). apply last_for_perm; [|exact P].
    intros x y Hx Hy Sx Sy. replace y with x; [reflexivity|].
    apply (nodup_key _ _ _ _ D Hx Hy). unfold sel in *.
    destruct (exguid_eqb (fst x) id) eqn:Ex; [|congruence]. destruct (exguid_eqb (fst y) id) eqn:Ey; [|congruence].
    apply exguid_eqb_eq in Ex, Ey. rewrite (HK _ Sx), (HK _ Sy). congruence.
  Qed.

  Definition entries (c : list (exguid * element)) : list (exguid * V) :=
    flat_map (fun x => match val (snd x) with Some v => [(fst x, v)] | None => [] end) c.

  Lemma kind_list els : pi (fold_left elem_step els package_empty) =
    fold_left (fun m e => ins (fst e) (snd e) m) (entries (map pair_of els)) [].
  Proof.
    rewrite <- H0. generalize package_empty.
    induction els as [|x els IH]; intro p; cbn [fold_left map entries flat_map]; [reflexivity|].
    rewrite IH, HS. unfold pair_of at 2. cbn [fst snd]. fold (entries (map pair_of els)).
    destruct (val (el_content x)); reflexivity.
  Qed.

  Lemma entries_length c : length (entries c) = length (filter (fun x => (kind (snd x) =? k)%N) c).
  Proof.
    induction c as [|x c IH]; cbn [entries flat_map filter]; [reflexivity|]. fold (entries c).
    pose proof (HK (snd x)). pose proof (HN (snd x)). rewrite app_length, IH.
    destruct (val (snd x)) as [v|], ((kind (snd x) =? k)%N) eqn:E; cbn [length]; auto.
    - rewrite (H ltac:(discriminate)), N.eqb_refl in E. discriminate.
    - apply N.eqb_eq in E. now apply H1 in E.
  Qed.

  Lemma kind_same els els' :
    (length (filter (fun x => (kind (snd x) =? k)%N) (map pair_of els)) <= 1)%nat ->
    Permutation (map pair_of els) (map pair_of els') ->
    pi (fold_left elem_step els package_empty) = pi (fold_left elem_step els' package_empty).
  Proof.
    intros L P. rewrite !kind_list. f_equal. rewrite <- entries_length in L.
    assert (Q : Permutation (entries (map pair_of els)) (entries (map pair_of els'))) by now apply Permutation_flat_map.
    revert L Q. destruct (entries (map pair_of els)) as [|e [|? ?]]; cbn [length]; intros L Q; [| |lia].
    - apply Permutation_nil in Q. now rewrite Q.
    - apply Permutation_length_1_inv in Q. now rewrite Q.
  Qed.

  Lemma kind_length els :
    (length (pi (fold_left elem_step els package_empty))
     <= length (filter (fun x => (kind (snd x) =? k)%N) (map pair_of els)))%nat.
  Proof.
    rewrite kind_list, <- entries_length. generalize (entries (map pair_of els)). intro l.
    change (length l) with (@length (exguid * V) [] + length l)%nat. generalize (@nil (exguid * V)).
    induction l as [|e l IH]; intro m; cbn [fold_left length]; [lia|]. etransitivity; [apply IH|].
    pose proof (PackageFacts.ainsert_length exguid_eqb (fst e) (snd e) m). unfold ins. lia.
  Qed.
End Kind.

Ltac kindly := first [reflexivity | intros [] [? ? []]; reflexivity | intros []; cbn; congruence].

Lemma packages_agree els els' :
  Permutation (content els) (content els') -> unambiguous (content els) ->
  agree (fold_left aelem_step els package_empty) (fold_left aelem_step els' package_empty) /\
  (length (pk_indexes (fold_left aelem_step els package_empty)) <= 1)%nat.
Proof.
  intros P (D & L1 & L2). unfold content in *. fold pair_of in *.
  assert (F : forall {V} (pi : package -> V) l, (forall p, pi (without_fragments p) = pi p) ->
    pi (fold_left aelem_step l package_empty) = pi (fold_left elem_step (proper l) package_empty)).
  { intros V pi l E. rewrite <- E, without_fold. reflexivity. }
  split; [split|]; try intro id.
  all: rewrite !F by reflexivity.
  - eapply (kind_same pk_indexes (fun x => match x with ElIndex l => Some (fold_left index_step l storage_index_empty) | _ => None end) 1);
      [kindly ..|exact L1|exact P].
  - eapply (kind_same pk_manifests (fun x => match x with ElManifest g l => Some (StorageManifestV g (fold_left (fun m e => ainsert exguid_eqb (fst e) (snd e) m) l [])) | _ => None end) 2);
      [kindly ..|exact L2|exact P].
  - eapply (kind_lookup pk_cells (fun x => match x with ElCell c => Some c | _ => None end) 3);
      [kindly ..|exact D|exact P].
  - eapply (kind_lookup pk_revisions (fun x => match x with ElRevision r b l => Some (let s := fold_left rev_step l ([], []) in RevManifest r b (fst s) (snd s)) | _ => None end) 4);
      [kindly ..|exact D|exact P].
  - eapply (kind_lookup pk_groups (fun x => match x with ElGroup d o => Some (ObjectGroup d [] o) | _ => None end) 5);
      [kindly ..|exact D|exact P].
  - eapply (kind_lookup pk_blobs (fun x => match x with ElBlob b => Some b | _ => None end) 10);
      [kindly ..|exact D|exact P].
  - etransitivity; [|exact L1].
    eapply (kind_length pk_indexes (fun x => match x with ElIndex l => Some (fold_left index_step l storage_index_empty) | _ => None end) 1);
      kindly.
Qed.

(** ** Whole reads *)
Lemma open_same d d' : same_content d d' -> forall h fuel, open_store h fuel d = open_store h fuel d'.
Proof.
  intros (els & els' & (e & t & ft & f & lv & ff & index & schema & -> & H)
    & (e' & t' & ft' & f' & lv' & ff' & index' & schema' & -> & H') & P & U) h fuel.
  unfold open_store, run. rewrite (file_reads _ _ _ _ _ _ _ _ t H), (file_reads _ _ _ _ _ _ _ _ t' H').
  cbn [rbind]. destruct (packages_agree _ _ P U) as [A L]. apply store_agree; auto.
Qed.

Lemma open_elements d d' : same_elements d d' -> forall h fuel, open_store h fuel d = open_store h fuel d'.
Proof.
  intros (e & t & ft & f & lv & ff & e' & t' & ft' & f' & lv' & ff' & index & schema & schema' & els & -> & H & -> & H') h fuel.
  unfold open_store, run. rewrite (file_reads _ _ _ _ _ _ _ _ t H), (file_reads _ _ _ _ _ _ _ _ t' H').
  cbn [rbind]. apply store_agree; [now split|now left].
Qed.

Definition opens_alike (d d' : list N) : Prop := forall h fuel, open_store h fuel d = open_store h fuel d'.

Lemma buffer_alike d d' : opens_alike d d' ->
  forall h fuel n, parse_section_buffer h fuel d n = parse_section_buffer h fuel d' n.
Proof. intros H h fuel n. unfold parse_section_buffer. now rewrite H. Qed.

Lemma section_file_alike fs fs' : same_files opens_alike fs fs' -> forall h fuel p,
  parse_section_file h fuel fs p = parse_section_file h fuel fs' p.
Proof.
  intros (_ & _ & _ & _ & R) h fuel p. specialize (R p). unfold parse_section_file.
  destruct (fs_read fs p), (fs_read fs' p); cbn in R; try contradiction; [|reflexivity].
  cbn [ok_or rbind]. now rewrite R.
Qed.

Lemma resolve_alike fs fs' : same_files opens_alike fs fs' -> forall s b n,
  resolve_entry_path s fs b n = resolve_entry_path s fs' b n.
Proof.
  intros (X & _ & C & _) s b n. unfold resolve_entry_path.
  destruct (is_absolute n); [reflexivity|]. apply rbind_ext. intros [|c l]; [reflexivity|]. cbv zeta.
  now rewrite X, !C.
Qed.

Lemma notebook_alike fs fs' : same_files opens_alike fs fs' -> forall s h d f p,
  parse_notebook s h d f fs p = parse_notebook s h d f fs' p.
Proof.
  intros E s h d f. induction d as [|d IH]; intro p; cbn [parse_notebook]; [reflexivity|].
  pose proof E as (X & F & C & D & R). specialize (R p).
  destruct (fs_read fs p), (fs_read fs' p); cbn in R; try contradiction; [|reflexivity].
  cbn [ok_or rbind]. rewrite R. apply rbind_ext. intro st. destruct (_ =? _); [|reflexivity].
  apply rbind_ext. intro b. apply rbind_ext. intros [names c].
  rewrite (map_res_ext _ _ names (resolve_alike _ _ E s b)). apply rbind_ext. intro ps.
  rewrite (filter_ext (fs_exists fs) (fs_exists fs')) by (intro; symmetry; apply X).
  f_equal. apply map_res_ext. intro q. rewrite F, D, (section_file_alike _ _ E).
  destruct (fs_is_file fs q); [reflexivity|]. do 3 (apply rbind_ext; intro). now rewrite IH.
Qed.

Lemma same_alike d d' : d = d' \/ same_elements d d' \/ same_content d d' -> opens_alike d d'.
Proof. intros [->|[H|H]] h fuel; [reflexivity|now apply open_elements|now apply open_same]. Qed.

Lemma files_alike (R : list N -> list N -> Prop) fs fs' : (forall d d', R d d' -> opens_alike d d') -> same_files R fs fs' -> same_files opens_alike fs fs'.
Proof.
  intros H (X & F & C & D & K). repeat split; auto. intro p. specialize (K p).
  destruct (fs_read fs p), (fs_read fs' p); cbn in *; auto.
Qed.

Lemma buffer_same d d' : same_content d d' -> forall h fuel n,
  parse_section_buffer h fuel d n = parse_section_buffer h fuel d' n.
Proof. intro H. apply buffer_alike. exact (open_same _ _ H). Qed.

Lemma buffer_elements d d' : same_elements d d' -> forall h fuel n,
  parse_section_buffer h fuel d n = parse_section_buffer h fuel d' n.
Proof. intro H. apply buffer_alike. exact (open_elements _ _ H). Qed.

Lemma notebook_same fs fs' :
  same_files (fun d d' => d = d' \/ same_elements d d' \/ same_content d d') fs fs' ->
  forall s h d f p, parse_notebook s h d f fs p = parse_notebook s h d f fs' p.
Proof. intro H. apply notebook_alike. apply (files_alike _ _ _ same_alike H). Qed.
