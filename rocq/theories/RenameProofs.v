(** Renaming identifiers: packages and stores. *)
From Coq Require Import Lia ZifyBool ZifyNat ZifyN Permutation.
From Verif Require Import Base BaseProofs Codec Package SpecPackage PackageRT SpecAccept AcceptProofs PropSet Store
  SpecSame SpecRename SameProofs.

Definition rfun {A B} (k : A -> B) (r : res A) : res B := let! a := r in Ok (k a).

Lemma rfun_bind {A B C} (k : B -> C) (r : res A) (p : A -> res B) :
  rfun k (rbind r p) = rbind r (fun a => rfun k (p a)).
Proof. destruct r; reflexivity. Qed.
Lemma bind_rfun {A B C} (k : A -> B) (r : res A) (p : B -> res C) :
  rbind (rfun k r) p = rbind r (fun a => p (k a)).
Proof. destruct r; reflexivity. Qed.
Lemma rfun_id {A} (r : res A) : rfun (fun a => a) r = r.
Proof. destruct r; reflexivity. Qed.
Lemma ok_or_map {A B} (k : A -> B) e o : ok_or e (option_map k o) = rfun k (ok_or e o).
Proof. destruct o; reflexivity. Qed.
Lemma map_res_map {A B C} (k : A -> B) (p : B -> res C) l :
  map_res p (map k l) = map_res (fun a => p (k a)) l.
Proof. induction l as [|a l IH]; cbn; [reflexivity|]. now rewrite IH. Qed.
Lemma map_res_fun {A B C} (k : B -> C) (p : A -> res B) l :
  map_res (fun a => rfun k (p a)) l = rfun (map k) (map_res p l).
Proof.
  induction l as [|a l IH]; cbn; [reflexivity|]. rewrite IH. destruct (p a); cbn; [|reflexivity..].
  destruct (map_res p l); reflexivity.
Qed.

(** ** Tables *)
Definition remap {K V K' V'} (fk : K -> K') (fv : V -> V') (m : amap K V) : amap K' V' :=
  map (fun e => (fk (fst e), fv (snd e))) m.

Section Remap.
  Context {K V K' V' : Type} (eqb : K -> K -> bool) (eqb' : K' -> K' -> bool) (fk : K -> K') (fv : V -> V').
  Context (E : forall a b, eqb' (fk a) (fk b) = eqb a b).

  Lemma alookup_remap k (m : amap K V) : alookup eqb' (fk k) (remap fk fv m) = option_map fv (alookup eqb k m).
  Proof. induction m as [|[x v] m IH]; cbn; [reflexivity|]. rewrite E. destruct (eqb k x); [reflexivity|exact IH]. Qed.
  Lemma amember_remap k (m : amap K V) : amember eqb' (fk k) (remap fk fv m) = amember eqb k m.
  Proof. unfold amember. rewrite alookup_remap. now destruct (alookup eqb k m). Qed.
  Lemma ainsert_remap k v (m : amap K V) :
    ainsert eqb' (fk k) (fv v) (remap fk fv m) = remap fk fv (ainsert eqb k v m).
  Proof.
    unfold ainsert, remap. rewrite map_app. cbn [map fst snd]. f_equal.
    induction m as [|[x w] m IH]; cbn; [reflexivity|]. rewrite E. destruct (eqb k x); cbn; [exact IH|]. now rewrite IH.
  Qed.
  Lemma aextend_remap l : forall m : amap K V,
    aextend eqb' (remap fk fv m) (remap fk fv l) = remap fk fv (aextend eqb m l).
  Proof.
    unfold aextend. induction l as [|[k v] l IH]; intro m; [reflexivity|]. cbn [remap map fold_left fst snd].
    rewrite ainsert_remap. apply IH.
  Qed.
End Remap.

Section Rename.
  Context (f g : exguid -> exguid) (R : renaming f g).

  Lemma f_inj a b : f a = f b -> a = b.
  Proof. intro H. destruct R as (L & _). now rewrite <- (L a), <- (L b), H. Qed.
  Lemma f_eqb a b : exguid_eqb (f a) (f b) = exguid_eqb a b.
  Proof.
    destruct (exguid_eqb a b) eqn:E.
    - apply exguid_eqb_eq in E. subst. now apply exguid_eqb_eq.
    - destruct (exguid_eqb (f a) (f b)) eqn:F; [|reflexivity]. apply exguid_eqb_eq, f_inj in F. subst.
      now rewrite (proj2 (exguid_eqb_eq _ _) eq_refl) in E.
  Qed.
  Lemma f_nil a : exguid_is_nil (f a) = exguid_is_nil a.
  Proof.
    assert (N : forall x, exguid_is_nil x = exguid_eqb x (ExGuid 0 0)) by (intros [x y]; reflexivity).
    rewrite !N. destruct R as (_ & _ & Z). rewrite <- Z at 1. apply f_eqb.
  Qed.
  Lemma f_option a : exguid_as_option (f a) = option_map f (exguid_as_option a).
  Proof. unfold exguid_as_option. rewrite f_nil. now destruct (exguid_is_nil a). Qed.

  Notation fc := (rename_cell f).
  Lemma fc_eqb a b : cellid_eqb (fc a) (fc b) = cellid_eqb a b.
  Proof. unfold cellid_eqb, rename_cell. cbn [fst snd]. now rewrite !f_eqb. Qed.

  (** ** The parts of a package *)
  Definition r_cm (m : cell_mapping) : cell_mapping := CellMapping (fc (cm_cell m)) (f (cm_id m)) (cm_serial m).
  Definition r_rv (m : rev_mapping) : rev_mapping := RevMapping (f (rv_mapping m)) (rv_serial m).
  Definition r_si (s : storage_index) : storage_index :=
    StorageIndex (map (fun e => (f (fst e), snd e)) (si_manifests s)) (remap fc r_cm (si_cells s)) (remap f r_rv (si_revs s)).
  Definition r_sm (s : storage_manifest) : storage_manifest := StorageManifestV (sm_id s) (remap (fun r => r) fc (sm_roots s)).
  Definition r_rm (r : revision_manifest) : revision_manifest :=
    RevManifest (f (rm_rev_id r)) (f (rm_base_rev_id r)) (map (fun e => (fst e, f (snd e))) (rm_roots r)) (map f (rm_groups r)).
  Definition r_og (o : object_group) : object_group :=
    ObjectGroup (map (rename_decl f) (og_decls o)) (og_metadata o) (map (rename_data f) (og_objects o)).
  (** Fragments are not looked at. *)
  Definition r_pk (p : package) : package :=
    Package (remap f r_si (pk_indexes p)) (remap f r_sm (pk_manifests p)) (remap f f (pk_cells p)) (remap f r_rm (pk_revisions p))
      (remap f r_og (pk_groups p)) [] (remap f (fun b => b) (pk_blobs p)).

  Lemma index_ren l : forall s, fold_left index_step (map (rename_index_item f) l) (r_si s) = r_si (fold_left index_step l s).
  Proof.
    induction l as [|i l IH]; intro s; cbn [map fold_left]; [reflexivity|]. rewrite <- IH. f_equal.
    destruct i as [m n|c m n|r m n]; cbn [rename_index_item index_step]; unfold r_si; cbn [si_manifests si_cells si_revs].
    - now rewrite map_app.
    - f_equal. change (CellMapping (fc c) (f m) n) with (r_cm (CellMapping c m n)). apply ainsert_remap, fc_eqb.
    - f_equal. change (RevMapping (f m) n) with (r_rv (RevMapping m n)). apply ainsert_remap, f_eqb.
  Qed.
  Lemma roots_ren l : forall m,
    fold_left (fun m e => ainsert exguid_eqb (fst e) (snd e) m) (map (fun r => (fst r, fc (snd r))) l) (remap (fun r => r) fc m) =
    remap (fun r => r) fc (fold_left (fun m e => ainsert exguid_eqb (fst e) (snd e) m) l m).
  Proof.
    induction l as [|[r c] l IH]; intro m; cbn [map fold_left fst snd]; [reflexivity|]. rewrite <- IH. f_equal.
    apply (ainsert_remap exguid_eqb exguid_eqb (fun r => r) fc). reflexivity.
  Qed.
  Lemma rev_ren l : forall a b,
    fold_left rev_step (map (rename_rev_item f) l) (map (fun e => (fst e, f (snd e))) a, map f b) =
    (map (fun e => (fst e, f (snd e))) (fst (fold_left rev_step l (a, b))), map f (snd (fold_left rev_step l (a, b)))).
  Proof.
    induction l as [|i l IH]; intros a b; cbn [map fold_left]; [reflexivity|].
    destruct i; cbn [rename_rev_item rev_step fst snd]; rewrite <- IH; f_equal; f_equal; now rewrite map_app.
  Qed.

  Definition r_elem (x : elem) : elem := Elem (f (el_id x)) (el_serial x) (rename_element f (el_content x)).
  Lemma step_ren p x : elem_step (r_pk p) (r_elem x) = r_pk (elem_step p x).
  Proof.
    destruct p as [si sm ce re og fr bl], x as [id s x].
    destruct x as [l|sc l|c|r b l|d o|b]; unfold elem_step, r_elem, r_pk; cbn [el_id el_content rename_element pk_indexes pk_manifests pk_cells pk_revisions pk_groups pk_fragments pk_blobs]; unfold ins.
    - f_equal. change storage_index_empty with (r_si storage_index_empty) at 1. rewrite index_ren. apply ainsert_remap, f_eqb.
    - f_equal. pose proof (roots_ren l []) as Q. change (remap (fun r : exguid => r) fc []) with (@nil (exguid * cellid)) in Q. rewrite Q. clear Q.
      change (ainsert exguid_eqb (f id) (r_sm (StorageManifestV sc (fold_left (fun m e => ainsert exguid_eqb (fst e) (snd e) m) l []))) (remap f r_sm sm) = remap f r_sm (ainsert exguid_eqb id (StorageManifestV sc (fold_left (fun m e => ainsert exguid_eqb (fst e) (snd e) m) l [])) sm)).
      apply ainsert_remap, f_eqb.
    - f_equal. apply ainsert_remap, f_eqb.
    - f_equal. pose proof (rev_ren l [] []) as Q. cbn [map] in Q. rewrite Q. clear Q. cbv zeta. cbn [fst snd]. apply (ainsert_remap exguid_eqb exguid_eqb f r_rm f_eqb id (RevManifest r b _ _)).
    - f_equal. apply (ainsert_remap exguid_eqb exguid_eqb f r_og f_eqb id (ObjectGroup d [] o)).
    - f_equal. apply (ainsert_remap exguid_eqb exguid_eqb f (fun b => b) f_eqb).
  Qed.
  Lemma fold_ren l : forall p, fold_left elem_step (map r_elem l) (r_pk p) = r_pk (fold_left elem_step l p).
  Proof. induction l as [|x l IH]; intro p; cbn [map fold_left]; [reflexivity|]. rewrite <- IH. f_equal. apply step_ren. Qed.

End Rename.

(** ** Orders *)
Lemma remap_id {K V} (fk : K -> K) (fv : V -> V) m :
  (forall k, fk k = k) -> (forall v, fv v = v) -> remap fk fv m = m.
Proof.
  intros A B. unfold remap. induction m as [|[k v] m IH]; cbn [map fst snd]; [reflexivity|]. now rewrite A, B, IH.
Qed.
Lemma remap_remap {K V K' V' K2 V2} (fk : K -> K') (fv : V -> V') (gk : K' -> K2) (gv : V' -> V2) m :
  remap gk gv (remap fk fv m) = remap (fun k => gk (fk k)) (fun v => gv (fv v)) m.
Proof. unfold remap. now rewrite map_map. Qed.
Lemma map_same {A} (k : A -> A) l : (forall a, k a = a) -> map k l = l.
Proof. intro H. induction l as [|a l IH]; cbn; [reflexivity|]. now rewrite H, IH. Qed.

Section Back.
  Context (f g : exguid -> exguid) (L : forall i, g (f i) = i).
  Lemma back_cell c : rename_cell g (rename_cell f c) = c.
  Proof. destruct c. unfold rename_cell. cbn. now rewrite !L. Qed.
  Lemma back_cm m : r_cm g (r_cm f m) = m.
  Proof. destruct m as [a b c]. unfold r_cm. cbn. now rewrite back_cell, L. Qed.
  Lemma back_rv m : r_rv g (r_rv f m) = m.
  Proof. destruct m as [a b]. unfold r_rv. cbn. now rewrite L. Qed.
  Lemma back_si m : r_si g (r_si f m) = m.
  Proof.
    destruct m as [a b c]. unfold r_si. cbn [si_manifests si_cells si_revs]. f_equal.
    - rewrite map_map. apply map_same. intros []. cbn. now rewrite L.
    - rewrite remap_remap. apply remap_id; [apply back_cell|apply back_cm].
    - rewrite remap_remap. apply remap_id; [apply L|apply back_rv].
  Qed.
  Lemma back_sm m : r_sm g (r_sm f m) = m.
  Proof.
    destruct m as [a b]. unfold r_sm. cbn [sm_id sm_roots]. f_equal.
    rewrite remap_remap. apply remap_id; [reflexivity|apply back_cell].
  Qed.
End Back.

Lemma perm_through {A} (k k' : A -> A) (o : list A -> list A) : (forall a, k' (k a) = a) ->
  (forall l, Permutation l (o l)) -> forall l, Permutation l (map k' (o (map k l))).
Proof.
  intros E P l. rewrite <- (map_same (fun a => k' (k a)) l E) at 1. rewrite <- map_map. apply Permutation_map, P.
Qed.

Section Orders.
  Context (f g : exguid -> exguid) (R : renaming f g).
  Lemma fg : forall i, f (g i) = i. Proof. apply R. Qed.
  Lemma gf : forall i, g (f i) = i. Proof. apply R. Qed.

  (** The iteration order that corresponds to [h] after renaming. *)
  Definition r_order (h : order) : order := Order
    (fun l => map (r_si f) (o_indexes h (map (r_si g) l)))
    (fun l => map (r_sm f) (o_manifests h (map (r_sm g) l)))
    (fun l => map (r_cm f) (o_cells h (map (r_cm g) l)))
    (fun l => map (r_rv f) (o_revs h (map (r_rv g) l)))
    (perm_through _ _ _ (back_si g f fg) (o_indexes_perm h))
    (perm_through _ _ _ (back_sm g f fg) (o_manifests_perm h))
    (perm_through _ _ _ (back_cm g f fg) (o_cells_perm h))
    (perm_through _ _ _ (back_rv g f fg) (o_revs_perm h)).

  Lemma r_indexes h l : o_indexes (r_order h) (map (r_si f) l) = map (r_si f) (o_indexes h l).
  Proof. cbn [r_order o_indexes]. now rewrite map_map, (map_same _ l (back_si f g gf)). Qed.
  Lemma r_manifests h l : o_manifests (r_order h) (map (r_sm f) l) = map (r_sm f) (o_manifests h l).
  Proof. cbn [r_order o_manifests]. now rewrite map_map, (map_same _ l (back_sm f g gf)). Qed.
  Lemma r_cells h l : o_cells (r_order h) (map (r_cm f) l) = map (r_cm f) (o_cells h l).
  Proof. cbn [r_order o_cells]. now rewrite map_map, (map_same _ l (back_cm f g gf)). Qed.
  Lemma r_revs h l : o_revs (r_order h) (map (r_rv f) l) = map (r_rv f) (o_revs h l).
  Proof. cbn [r_order o_revs]. now rewrite map_map, (map_same _ l (back_rv f g gf)). Qed.

  Lemma values_remap {K V K' V'} (fk : K -> K') (fv : V -> V') m : map snd (remap fk fv m) = map fv (map snd m).
  Proof. unfold remap. now rewrite !map_map. Qed.
  Lemma find_map {A B} (k : A -> B) (p : B -> bool) (q : A -> bool) l : (forall a, p (k a) = q a) ->
    find p (map k l) = option_map k (find q l).
  Proof. intro E. induction l as [|a l IH]; cbn; [reflexivity|]. rewrite E. destruct (q a); [reflexivity|exact IH]. Qed.
  Lemma filter_map_comm {A B} (k : A -> B) (p : B -> bool) (q : A -> bool) l : (forall a, p (k a) = q a) ->
    filter p (map k l) = map k (filter q l).
  Proof. intro E. induction l as [|a l IH]; cbn; [reflexivity|]. rewrite E. destruct (q a); cbn; now rewrite IH. Qed.
  Lemma hd_map {A B} (k : A -> B) l : hd_error (map k l) = option_map k (hd_error l).
  Proof. destruct l; reflexivity. Qed.
  Lemma or_else_map {A B} (k : A -> B) a b : or_else (option_map k a) (option_map k b) = option_map k (or_else a b).
  Proof. destruct a; reflexivity. Qed.
  Lemma opt_map_res_map {A B C} (k : A -> B) (p : B -> res C) o :
    opt_map_res p (option_map k o) = opt_map_res (fun a => p (k a)) o.
  Proof. destruct o; reflexivity. Qed.
  Lemma opt_map_res_fun {A B C} (k : B -> C) (p : A -> res B) o :
    opt_map_res (fun a => rfun k (p a)) o = rfun (option_map k) (opt_map_res p o).
  Proof. destruct o as [a|]; cbn; [|reflexivity]. destruct (p a); reflexivity. Qed.

  Notation fc := (rename_cell f).
  Notation E := (f_eqb f g R).
  Notation EC := (fc_eqb f g R).
  Notation P := (r_pk f).
  Notation SI := (r_si f).

  (** ** Finders *)
  Lemma r_by_serial h si s : find_revision_mapping_by_serial (r_order h) (SI si) s =
    option_map f (find_revision_mapping_by_serial h si s).
  Proof.
    unfold find_revision_mapping_by_serial, r_si. cbn [si_revs]. rewrite values_remap, r_revs.
    rewrite (find_map (r_rv f) _ (fun m => (sn_guid (rv_serial m) =? sn_guid s) && (sn_serial (rv_serial m) =? sn_serial s)))
      by reflexivity.
    destruct (find _ _); reflexivity.
  Qed.
  Lemma r_find_index h pk : find_storage_index (r_order h) (P pk) = option_map SI (find_storage_index h pk).
  Proof. unfold find_storage_index, r_pk. cbn [pk_indexes]. now rewrite values_remap, r_indexes, hd_map. Qed.
  Lemma r_find_manifest h pk : find_storage_manifest (r_order h) (P pk) = option_map (r_sm f) (find_storage_manifest h pk).
  Proof. unfold find_storage_manifest, r_pk. cbn [pk_manifests]. now rewrite values_remap, r_manifests, hd_map. Qed.
  Lemma r_index_by_id pk i : find_storage_index_by_id (P pk) (f i) = option_map SI (find_storage_index_by_id pk i).
  Proof. exact (alookup_remap exguid_eqb exguid_eqb f SI E i (pk_indexes pk)). Qed.
  Lemma r_blob pk i : find_blob (P pk) (f i) = find_blob pk i.
  Proof.
    unfold find_blob, r_pk. cbn [pk_blobs]. rewrite (alookup_remap exguid_eqb exguid_eqb f _ E).
    destruct (alookup _ _ _); reflexivity.
  Qed.
  Lemma r_revision_manifest pk i : find_revision_manifest (P pk) (f i) = option_map (r_rm f) (find_revision_manifest pk i).
  Proof. exact (alookup_remap exguid_eqb exguid_eqb f _ E i (pk_revisions pk)). Qed.
  Lemma r_group pk i : find_object_group (P pk) (f i) = option_map (r_og f) (find_object_group pk i).
  Proof. exact (alookup_remap exguid_eqb exguid_eqb f _ E i (pk_groups pk)). Qed.
  Lemma r_cell_revision pk i : find_cell_revision_id (P pk) (f i) = option_map f (find_cell_revision_id pk i).
  Proof. exact (alookup_remap exguid_eqb exguid_eqb f _ E i (pk_cells pk)). Qed.
  Lemma r_rev_mapping si i : find_revision_mapping_id (SI si) (f i) = option_map f (find_revision_mapping_id si i).
  Proof.
    unfold find_revision_mapping_id, r_si. cbn [si_revs]. rewrite (alookup_remap exguid_eqb exguid_eqb f _ E).
    destruct (alookup _ _ _); reflexivity.
  Qed.
  Lemma r_resolve pk si i : resolve_revision_manifest_id (P pk) (SI si) (f i) =
    option_map f (resolve_revision_manifest_id pk si i).
  Proof.
    unfold resolve_revision_manifest_id. rewrite r_rev_mapping, r_revision_manifest.
    destruct (find_revision_mapping_id si i), (find_revision_manifest pk i); reflexivity.
  Qed.
  Lemma r_resolve_cell pk si i : resolve_cell_revision_manifest_id (P pk) (SI si) (f i) =
    option_map f (resolve_cell_revision_manifest_id pk si i).
  Proof.
    unfold resolve_cell_revision_manifest_id. rewrite r_cell_revision, r_resolve.
    destruct (find_cell_revision_id pk i) as [r|]; cbn [option_map]; [|reflexivity]. now rewrite r_resolve, or_else_map.
  Qed.
  Lemma r_find_objects h pk c si : find_objects (r_order h) (P pk) (f c) (SI si) =
    rfun (map (r_og f)) (find_objects h pk c si).
  Proof.
    unfold find_objects. rewrite r_resolve_cell.
    replace (match find (fun m => exguid_eqb (cm_id m) (f c)) (o_cells (r_order h) (map snd (si_cells (SI si)))) with
      | Some m => find_revision_mapping_by_serial (r_order h) (SI si) (cm_serial m) | None => None end)
      with (option_map f (match find (fun m => exguid_eqb (cm_id m) c) (o_cells h (map snd (si_cells si))) with
      | Some m => find_revision_mapping_by_serial h si (cm_serial m) | None => None end)).
    2:{ unfold r_si at 1. cbn [si_cells]. rewrite values_remap, r_cells.
        rewrite (find_map (r_cm f) _ (fun m => exguid_eqb (cm_id m) c)) by (intro; apply E).
        destruct (find _ _) as [m|]; cbn [option_map]; [|reflexivity]. symmetry. apply r_by_serial. }
    rewrite or_else_map, ok_or_map, bind_rfun, rfun_bind. apply rbind_ext. intro r.
    rewrite r_revision_manifest, ok_or_map, bind_rfun, rfun_bind. apply rbind_ext. intro m.
    unfold r_rm at 1. cbn [rm_groups]. rewrite map_res_map, <- map_res_fun. apply map_res_ext. intro i.
    now rewrite r_group, ok_or_map.
  Qed.

  (** ** Objects *)
  Definition r_entries {T T'} (k : T -> T') (m : amap compactid (list (N * T))) : amap compactid (list (N * T')) :=
    remap (fun c => c) (map (fun e => (fst e, k (snd e)))) m.
  Definition r_mt (m : mapping_table) : mapping_table := MappingTable (r_entries f (mt_objects m)) (r_entries fc (mt_spaces m)).
  Definition r_object (o : object) : object :=
    Object (f (ob_context o)) (ob_jcid o) (ob_props o) (ob_file o) (r_mt (ob_mapping o)).

  Lemma entries_ren {T T'} (k : T -> T') l : forall i m,
    mapping_entries i (map (fun e => (fst e, k (snd e))) l) (r_entries k m) = r_entries k (mapping_entries i l m).
  Proof.
    induction l as [|[c t] l IH]; intros i m; cbn [map mapping_entries fst snd]; [reflexivity|]. rewrite <- IH. f_equal.
    unfold r_entries. rewrite (alookup_remap compactid_eqb compactid_eqb (fun c => c) _ (fun _ _ => eq_refl)).
    rewrite <- (ainsert_remap compactid_eqb compactid_eqb (fun c => c) _ (fun _ _ => eq_refl)). f_equal.
    destruct (alookup _ _ _) as [v|]; cbn [option_map]; [|reflexivity]. now rewrite map_app.
  Qed.
  Lemma mapping_ren os ss :
    mapping_from_entries (map (fun e => (fst e, f (snd e))) os) (map (fun e => (fst e, fc (snd e))) ss) =
    r_mt (mapping_from_entries os ss).
  Proof. unfold mapping_from_entries, r_mt. cbn [mt_objects mt_spaces]. f_equal; now rewrite <- entries_ren. Qed.
  Lemma get_ren {T T'} (k : T -> T') i c m : mapping_get i c (r_entries k m) = option_map k (mapping_get i c m).
  Proof.
    unfold mapping_get, r_entries. rewrite (alookup_remap compactid_eqb compactid_eqb (fun c => c) _ (fun _ _ => eq_refl)).
    destruct (alookup _ _ _) as [l|]; cbn [option_map]; [|reflexivity].
    assert (F : forall l : list (N * T), option_map snd (find (fun e => fst e =? i) (map (fun e => (fst e, k (snd e))) l)) =
      option_map k (option_map snd (find (fun e => fst e =? i) l))).
    { intro l'. rewrite (find_map _ _ (fun e => fst e =? i)) by reflexivity. now destruct (find _ _). }
    destruct l as [|[j t] [|e l]]; [reflexivity|reflexivity|]. apply (F ((j, t) :: e :: l)).
  Qed.
  Lemma combine_ren {A T T'} (k : T -> T') (a : list A) l :
    combine a (map k l) = map (fun e => (fst e, k (snd e))) (combine a l).
  Proof. revert l. induction a as [|x a IH]; intros [|t l]; cbn; [reflexivity..|]. now rewrite IH. Qed.

  Definition gk (k : exguid * N) : exguid * N := (f (fst k), snd k).
  Definition r_gd (d : group_data) : group_data := remap gk (rename_data f) d.
  Lemma gk_eqb a b : gkey_eqb (gk a) (gk b) = gkey_eqb a b.
  Proof. unfold gkey_eqb, gk. cbn [fst snd]. now rewrite E. Qed.
  Lemma r_find_object i p d : find_object (f i) p (r_gd d) = option_map (rename_data f) (find_object i p d).
  Proof. exact (alookup_remap gkey_eqb gkey_eqb gk _ gk_eqb (i, p) d). Qed.
  Lemma len_map {A B} (k : A -> B) l : len (map k l) = len l.
  Proof. unfold len. now rewrite map_length. Qed.

  Lemma r_object_parse o c s d pk : object_parse (f o) (f c) (f s) (r_gd d) (P pk) = rfun r_object (object_parse o c s d pk).
  Proof.
    unfold object_parse. rewrite !r_find_object, !ok_or_map, bind_rfun, rfun_bind. apply rbind_ext. intro md.
    rewrite bind_rfun, rfun_bind. apply rbind_ext. intro dd.
    replace (match rename_data f md with DataObject _ _ x => Ok x | _ => Err MalformedOneStoreData end)
      with (match md with DataObject _ _ x => Ok x | _ => Err MalformedOneStoreData end) by now destruct md.
    rewrite rfun_bind. apply rbind_ext. intro m. rewrite rfun_bind. apply rbind_ext. intro jc.
    destruct dd as [refs cells x| |]; cbn [rename_data rbind]; [|reflexivity..].
    rewrite rfun_bind. apply rbind_ext. intro props.
    replace (find_blob_id (f o) (r_gd d)) with (rfun (option_map f) (find_blob_id o d)).
    2:{ unfold find_blob_id. rewrite r_find_object. destruct (find_object o partition_file_data d) as [[]|]; reflexivity. }
    rewrite bind_rfun, rfun_bind. apply rbind_ext. intro b.
    replace (opt_map_res (fun b => ok_or MalformedOneStoreData (find_blob (P pk) b)) (option_map f b))
      with (opt_map_res (fun b => ok_or MalformedOneStoreData (find_blob pk b)) b).
    2:{ destruct b as [b|]; cbn [option_map opt_map_res]; [|reflexivity]. now rewrite r_blob. }
    rewrite rfun_bind. apply rbind_ext. intro file. cbv zeta. rewrite !len_map.
    destruct (len (op_object_ids props) <? len refs); [reflexivity|].
    destruct (negb _); [reflexivity|]. unfold rfun. cbn [rbind]. f_equal. unfold r_object. cbn [ob_context ob_jcid ob_props ob_file ob_mapping].
    f_equal. rewrite <- mapping_ren. f_equal.
    - rewrite map_app, <- !combine_ren. f_equal. f_equal. rewrite !map_map.
      rewrite (filter_map_comm fc _ (fun c => exguid_eqb (snd c) s)) by (intro; apply E). now rewrite map_map.
    - rewrite <- combine_ren. f_equal. apply filter_map_comm. intro a. unfold rename_cell at 1. cbn [snd]. now rewrite E.
  Qed.

  Definition r_objs (o : objects) : objects := remap f r_object o.
  Definition r_roots (r : roots) : roots := remap (fun r => r) f r.

  Lemma r_decl_id d : decl_object_id (rename_decl f d) = f (decl_object_id d).
  Proof. destruct d; reflexivity. Qed.
  Lemma r_decl_part d : decl_partition (rename_decl f d) = decl_partition d.
  Proof. destruct d; reflexivity. Qed.
  Lemma r_group_objects pk c s gr d ids : forall os,
    group_objects (P pk) (f c) (f s) (r_og f gr) (r_gd d) (map f ids) (r_objs os) =
    rfun r_objs (group_objects pk c s gr d ids os).
  Proof.
    induction ids as [|i ids IH]; intro os; cbn [map group_objects]; [reflexivity|].
    unfold r_objs at 1. rewrite (amember_remap exguid_eqb exguid_eqb f r_object E).
    destruct (amember exguid_eqb i os); [apply IH|]. unfold r_og at 1 2. cbn [og_decls og_objects]. rewrite !len_map.
    destruct (negb _); [reflexivity|]. rewrite r_object_parse, bind_rfun, rfun_bind. apply rbind_ext. intro o.
    rewrite <- IH. f_equal. apply ainsert_remap, E.
  Qed.
  Lemma combine_both {A A' B B'} (k : A -> A') (j : B -> B') a b :
    combine (map k a) (map j b) = map (fun e => (k (fst e), j (snd e))) (combine a b).
  Proof. revert b. induction a as [|x a IH]; intros [|y b]; cbn; [reflexivity..|]. now rewrite IH. Qed.
  Lemma r_parse_group pk c i s os : parse_group (P pk) (f c) (f i) (f s) (r_objs os) = rfun r_objs (parse_group pk c i s os).
  Proof.
    unfold parse_group. rewrite r_group, ok_or_map, bind_rfun, rfun_bind. apply rbind_ext. intro gr. cbv zeta.
    rewrite <- r_group_objects. f_equal; unfold r_og; cbn [og_decls og_objects].
    - unfold r_gd. rewrite <- (aextend_remap gkey_eqb gkey_eqb gk (rename_data f) gk_eqb). f_equal. unfold remap.
      rewrite combine_both, !map_map. apply map_ext. intros [d o]. cbn [fst snd]. now rewrite r_decl_id, r_decl_part.
    - rewrite !map_map. apply map_ext. apply r_decl_id.
  Qed.
  Lemma r_parse_groups pk c s l : forall os,
    parse_groups (P pk) (f c) (f s) (map f l) (r_objs os) = rfun r_objs (parse_groups pk c s l os).
  Proof.
    induction l as [|i l IH]; intro os; cbn [map parse_groups]; [reflexivity|].
    rewrite r_parse_group, bind_rfun, rfun_bind. apply rbind_ext. intro. apply IH.
  Qed.

  Lemma r_revision i c s si pk os rs :
    revision_parse (f i) (f c) (f s) (SI si) (P pk) [] (r_objs os) (r_roots rs) =
    rfun (fun x => (option_map f (fst (fst x)), r_objs (snd (fst x)), r_roots (snd x))) (revision_parse i c s si pk [] os rs).
  Proof.
    unfold revision_parse. rewrite r_revision_manifest, ok_or_map, bind_rfun, rfun_bind. apply rbind_ext. intro m.
    replace (opt_map_res (fun m => ok_or MalformedOneStoreData (resolve_revision_manifest_id (P pk) (SI si) m))
      (exguid_as_option (rm_base_rev_id (r_rm f m)))) with (rfun (option_map f) (opt_map_res
      (fun m => ok_or MalformedOneStoreData (resolve_revision_manifest_id pk si m)) (exguid_as_option (rm_base_rev_id m)))).
    2:{ unfold r_rm. cbn [rm_base_rev_id]. rewrite (f_option f g R), opt_map_res_map, <- opt_map_res_fun.
        destruct (exguid_as_option _); cbn [opt_map_res]; [|reflexivity]. now rewrite r_resolve, ok_or_map. }
    rewrite bind_rfun, rfun_bind. apply rbind_ext. intro base. cbn [alookup].
    unfold r_rm at 1. cbn [rm_roots]. rewrite map_res_map.
    rewrite (map_res_ext _ (fun a => rfun (fun x => (fst x, f (snd x))) (let! r := role_parse (fst a) in Ok (r, snd a)))).
    2:{ intros [r o]. cbn [fst snd]. destruct (role_parse r); reflexivity. }
    rewrite map_res_fun, bind_rfun, rfun_bind. apply rbind_ext. intro new. cbv zeta.
    unfold r_rm. cbn [rm_groups]. rewrite r_parse_groups, bind_rfun, rfun_bind. apply rbind_ext. intro os'.
    unfold rfun. cbn [rbind fst snd]. f_equal. f_equal. unfold r_roots.
    exact (aextend_remap role_eqb role_eqb (fun r => r) f (fun _ _ => eq_refl) new rs).
  Qed.

  Lemma r_walk fuel c s si pk : forall i os rs,
    revision_walk fuel (f c) (f s) (SI si) (P pk) [] (option_map f i) (r_objs os) (r_roots rs) =
    rfun (fun x => (r_objs (fst x), r_roots (snd x))) (revision_walk fuel c s si pk [] i os rs).
  Proof.
    induction fuel as [|n IH]; intros [i|] os rs; cbn [revision_walk option_map]; try reflexivity.
    rewrite r_revision, bind_rfun, rfun_bind. apply rbind_ext. intros [[b os'] rs']. cbn [fst snd]. apply IH.
  Qed.

  Definition r_space (s : space) : space :=
    Space (f (sp_id s)) (f (sp_context s)) (r_roots (sp_roots s)) (r_objs (sp_objects s)).
  Definition r_named (x : cellid * space) : cellid * space := (fc (fst x), r_space (snd x)).

  Lemma r_space_parse h fuel m si pk :
    space_parse (r_order h) fuel (r_cm f m) (SI si) (P pk) [] = rfun r_named (space_parse h fuel m si pk []).
  Proof.
    unfold space_parse. destruct m as [[c s] i n]. unfold r_cm, rename_cell. cbn [cm_cell cm_id cm_serial fst snd].
    rewrite r_resolve_cell, r_by_serial, r_cell_revision, or_else_map.
    destruct (or_else _ _) as [id|]; cbn [option_map].
    - pose proof (r_walk fuel c s si pk (Some id) [] []) as W. cbn [option_map] in W.
      change (r_objs []) with (@nil (exguid * object)) in W. change (r_roots []) with (@nil (role * exguid)) in W.
      rewrite W, bind_rfun, rfun_bind. apply rbind_ext. intros [os rs]. reflexivity.
    - destruct (find_cell_revision_id pk i) as [r|]; cbn [option_map]; [|reflexivity]. rewrite (f_nil f g R).
      destruct (exguid_is_nil r); reflexivity.
  Qed.
  Lemma r_parse_space h fuel c si pk :
    parse_object_space (r_order h) fuel (fc c) (SI si) (P pk) [] = rfun r_named (parse_object_space h fuel c si pk []).
  Proof.
    unfold parse_object_space, r_si. cbn [si_cells]. rewrite (alookup_remap cellid_eqb cellid_eqb fc (r_cm f) EC).
    rewrite ok_or_map, bind_rfun, rfun_bind. apply rbind_ext. intro m. apply r_space_parse.
  Qed.
  Definition r_spaces (m : amap cellid space) : amap cellid space := remap fc r_space m.
  Lemma r_parse_spaces h fuel si pk done ms : forall sps,
    parse_spaces (r_order h) fuel (SI si) (P pk) [] (map fc done) (map (r_cm f) ms) (r_spaces sps) =
    rfun r_spaces (parse_spaces h fuel si pk [] done ms sps).
  Proof.
    induction ms as [|m ms IH]; intro sps; cbn [map parse_spaces]; [reflexivity|].
    change (cm_id (r_cm f m)) with (f (cm_id m)). change (cm_cell (r_cm f m)) with (fc (cm_cell m)). rewrite (f_nil f g R). destruct (exguid_is_nil (cm_id m)); [apply IH|].
    replace (existsb (cellid_eqb (fc (cm_cell m))) (map fc done)) with (existsb (cellid_eqb (cm_cell m)) done).
    2:{ clear IH. induction done as [|d l IHd]; cbn; [reflexivity|]. now rewrite IHd, EC. }
    destruct (existsb _ done); [apply IH|]. rewrite r_parse_space, bind_rfun, rfun_bind. apply rbind_ext.
    intros [i s]. unfold r_named. cbn [fst snd]. rewrite <- IH. f_equal. apply ainsert_remap, EC.
  Qed.

  Lemma r_header gr : header_parse_store (r_og f gr) = header_parse_store gr.
  Proof.
    unfold header_parse_store, r_og. cbn [og_decls og_objects]. rewrite combine_both.
    rewrite (find_map _ _ (fun p => decl_partition (fst p) =? 1)) by (intros [d o]; cbn; now rewrite r_decl_part).
    destruct (find _ _) as [[d o]|]; cbn [option_map ok_or rbind fst snd]; [|reflexivity]. destruct o; reflexivity.
  Qed.

  Definition r_store (s : store) : store :=
    Store (st_schema s) (st_header s) (r_space (st_data_root s)) (r_spaces (st_spaces s)).

  (** ** Stores *)
  Lemma r_parse_store h fuel a b c d i sc pk a' b' c' d' sc' :
    parse_store (r_order h) fuel (Packaging a' b' c' d' (f i) sc' (P pk)) =
    rfun r_store (parse_store h fuel (Packaging a b c d i sc pk)).
  Proof.
    unfold parse_store. cbn [pg_package pg_storage_index]. cbv zeta.
    rewrite r_index_by_id, r_find_index, or_else_map, ok_or_map, bind_rfun, rfun_bind. apply rbind_ext. intro si.
    rewrite r_find_manifest, ok_or_map, bind_rfun, rfun_bind. apply rbind_ext. intro sm.
    replace (find_header_cell_id (r_sm f sm)) with (rfun fc (find_header_cell_id sm)).
    2:{ unfold find_header_cell_id, r_sm. cbn [sm_roots].
        rewrite (alookup_remap exguid_eqb exguid_eqb (fun r => r) fc (fun _ _ => eq_refl) header_cell_root). now rewrite ok_or_map. }
    rewrite bind_rfun, rfun_bind. apply rbind_ext. intro hc.
    replace (find_cell_mapping_id (SI si) (fc hc)) with (option_map f (find_cell_mapping_id si hc)).
    2:{ unfold find_cell_mapping_id, r_si. cbn [si_cells]. rewrite (alookup_remap cellid_eqb cellid_eqb fc (r_cm f) EC).
        destruct (alookup _ _ _); reflexivity. }
    rewrite ok_or_map, bind_rfun, rfun_bind. apply rbind_ext. intro hm.
    rewrite r_find_objects, bind_rfun, rfun_bind. apply rbind_ext. intro gs.
    rewrite hd_map, ok_or_map, bind_rfun, rfun_bind. apply rbind_ext. intro hg.
    rewrite r_header, rfun_bind. apply rbind_ext. intro hd.
    replace (find_data_root_cell_id (r_sm f sm)) with (rfun fc (find_data_root_cell_id sm)).
    2:{ unfold find_data_root_cell_id, r_sm. cbn [sm_roots].
        rewrite (alookup_remap exguid_eqb exguid_eqb (fun r => r) fc (fun _ _ => eq_refl) data_root). now rewrite ok_or_map. }
    rewrite bind_rfun, rfun_bind. apply rbind_ext. intro rc.
    rewrite r_parse_space, bind_rfun, rfun_bind. apply rbind_ext. intros [ri root].
    unfold r_named. cbn [fst snd]. change (si_cells (SI si)) with (remap fc (r_cm f) (si_cells si)). rewrite values_remap, r_cells.
    change [fc hc; fc rc] with (map fc [hc; rc]).
    change (@nil (cellid * space)) with (r_spaces []) at 1. rewrite r_parse_spaces.
    rewrite bind_rfun, rfun_bind. reflexivity.
  Qed.
End Orders.
