(** Every described store has a file. *)
From Coq Require Import Lia ZifyBool ZifyNat ZifyN Permutation.
From Verif Require Import Base BaseProofs Codec SpecCodec CodecProofs CodecRT2 Package SpecPackage PackageRT PackageFacts PropSet PropIds SpecPropSet
  PropSetRT Store SpecStore StoreProofs SpecAccept AcceptProofs SpecSame Notebook ExampleFile WriterProofs SpecFile.

(** ** The author *)
Definition w_id (k j : nat) : exguid := ExGuid (N.of_nat k + 1) (N.of_nat j + 1).
Definition pspace := (cellid * list (exguid * exguid) * list (object_desc * list N))%type.

Fixpoint w_entries (k j : nat) (l : list (object_desc * list N)) : list entry :=
  match l with
  | [] => []
  | (d, e) :: r =>
    (DeclObject (od_id d) 4 0 0 0, DataObject [] [] (le_bytes 4 (od_kind d)))
    :: (DeclObject (od_id d) 1 0 0 0, DataObject (od_refs d) (od_cells d) e)
    :: match od_file d with Some _ => [(DeclBlob (od_id d) (w_id k j) 2 0 0, DataBlobRef [] [] (w_id k j))] | None => [] end
    ++ w_entries k (S j) r
  end.
Fixpoint w_blobs (k j : nat) (l : list (object_desc * list N)) : list (exguid * element) :=
  match l with
  | [] => []
  | (d, e) :: r => match od_file d with Some b => [(w_id k j, ElBlob b)] | None => [] end ++ w_blobs k (S j) r
  end.
Definition w_space (k : nat) (s : pspace) : list (exguid * element) :=
  (w_id k 0, ElCell (w_id k 0))
  :: (w_id k 0, ElRevision (w_id k 0) nil_id (map (fun r => RvRoot (fst r) (snd r)) (snd (fst s)) ++ [RvGroup (w_id k 0)]))
  :: (w_id k 0, ElGroup (map fst (w_entries k 0 (snd s))) (map snd (w_entries k 0 (snd s))))
  :: w_blobs k 0 (snd s).
Fixpoint w_spaces (k : nat) (l : list pspace) : list (exguid * element) :=
  match l with [] => [] | s :: r => w_space k s ++ w_spaces (S k) r end.
Fixpoint w_items (k : nat) (l : list pspace) : list index_item :=
  match l with [] => [] | s :: r => IxCell (fst (fst s)) (w_id k 0) (Serial 0 0) :: w_items (S k) r end.
Definition w_store (schema : guid) (hc rc : cellid) (l : list pspace) : list (exguid * element) :=
  (w_id 0 0, ElIndex (w_items 0 l))
  :: (w_id 0 0, ElManifest schema [(ExGuid 0x1A5A319CC26B41AAB9C59BD8C44E07D4 1, hc); (ExGuid 0x84DEFAB9AAA34A0DA3A8520C77AC7073 2, rc)])
  :: w_spaces 0 l.

(** ** Names *)
Lemma w_id_inj k j k' j' : w_id k j = w_id k' j' -> k = k' /\ j = j'.
Proof. unfold w_id. intro H. injection H. lia. Qed.

Lemma blobs_names k j l x : In x (w_blobs k j l) -> exists j', (j <= j')%nat /\ fst x = w_id k j' /\ kind (snd x) = 10.
Proof.
  revert j. induction l as [|[d e] l IH]; cbn; intro j; [intros []|]. rewrite in_app_iff. intros [H|H].
  - destruct (od_file d); [|destruct H]. destruct H as [<-|[]]. exists j. cbn. auto.
  - apply IH in H as (j' & L & E). exists j'. split; [lia|exact E].
Qed.
Lemma blobs_nodup k j l : NoDup (map (fun x => (fst x, kind (snd x))) (w_blobs k j l)).
Proof.
  revert j. induction l as [|[d e] l IH]; cbn; intro j; [constructor|]. rewrite map_app.
  destruct (od_file d); cbn; [|apply IH]. constructor; [|apply IH]. intro I. apply in_map_iff in I as (x & Q & I).
  apply blobs_names in I as (j' & L & E & _). rewrite E in Q. injection Q as Q _. apply N2Nat.inj_iff in Q. lia.
Qed.
Lemma space_names k s x : In x (w_space k s) -> exists j, fst x = w_id k j /\ 3 <= kind (snd x).
Proof.
  unfold w_space. intros [<-|[<-|[<-|H]]]; cbn [fst snd kind]; [exists 0%nat; split; [reflexivity|lia]..|].
  apply blobs_names in H as (j & _ & E & K). exists j. split; [exact E|lia].
Qed.
Lemma space_nodup k s : NoDup (map (fun x => (fst x, kind (snd x))) (w_space k s)).
Proof.
  unfold w_space. cbn [map fst snd kind].
  assert (B : forall n, n < 10 -> ~ In (w_id k 0, n) (map (fun x => (fst x, kind (snd x))) (w_blobs k 0 (snd s)))).
  { intros n Hn I. apply in_map_iff in I as (x & Q & I). apply blobs_names in I as (_ & _ & _ & K). injection Q. lia. }
  repeat constructor; [..|apply blobs_nodup]; cbn [In]; intro H; repeat (destruct H as [H|H]; [discriminate H|]); revert H; apply B; reflexivity.
Qed.
Lemma spaces_names k l x : In x (w_spaces k l) -> exists k' j, (k <= k')%nat /\ fst x = w_id k' j /\ 3 <= kind (snd x).
Proof.
  revert k. induction l as [|s l IH]; cbn [w_spaces]; intro k; [intros []|]. rewrite in_app_iff. intros [H|H].
  - apply space_names in H as (j & E). exists k, j. split; [lia|exact E].
  - apply IH in H as (k' & j & L & E). exists k', j. split; [lia|exact E].
Qed.
Lemma nodup_app {A} (l l' : list A) : NoDup l -> NoDup l' -> (forall x, In x l -> ~ In x l') -> NoDup (l ++ l').
Proof.
  induction l as [|a l IH]; cbn; intros D D' H; [exact D'|]. inversion D; subst. constructor.
  - rewrite in_app_iff. intros [I|I]; [contradiction|]. apply (H a); [now left|exact I].
  - apply IH; auto.
Qed.
Lemma spaces_nodup k l : NoDup (map (fun x => (fst x, kind (snd x))) (w_spaces k l)).
Proof.
  revert k. induction l as [|s l IH]; cbn [w_spaces]; intro k; [constructor|]. rewrite map_app.
  apply nodup_app; [apply space_nodup|apply IH|]. intros x I I'. apply in_map_iff in I as (y & <- & I).
  apply in_map_iff in I' as (y' & Q & I'). apply space_names in I as (j & E & _). apply spaces_names in I' as (k' & j' & L & E' & _).
  rewrite E, E' in Q. injection Q. lia.
Qed.

Lemma filter_nil {A} (f : A -> bool) l : (forall x, In x l -> f x = false) -> filter f l = [].
Proof. induction l as [|a l IH]; cbn; intro H; [reflexivity|]. rewrite (H a) by now left. auto. Qed.

Lemma store_unambiguous schema hc rc l : unambiguous (w_store schema hc rc l).
Proof.
  assert (S0 : forall x, In x (w_spaces 0 l) -> 3 <= kind (snd x)) by (intros x I; apply spaces_names in I as (? & ? & _ & _ & K); exact K).
  unfold unambiguous, w_store. refine (conj _ (conj _ _)).
  - cbn [map fst snd kind]. constructor; [|constructor; [|apply spaces_nodup]].
    + cbn [In]. intros [H|H]; [discriminate H|]. apply in_map_iff in H as (x & Q & I). apply S0 in I. injection Q. lia.
    + intro H. apply in_map_iff in H as (x & Q & I). apply S0 in I. injection Q. lia.
  - cbn. rewrite filter_nil; [cbn; lia|]. intros x I. apply S0 in I. lia.
  - cbn. rewrite filter_nil; [cbn; lia|]. intros x I. apply S0 in I. lia.
Qed.

(** ** What it holds *)
Lemma combine_split {A B} (l : list (A * B)) : combine (map fst l) (map snd l) = l.
Proof. induction l as [|[a b] l IH]; cbn; congruence. Qed.

Definition w_kind_entry (d : object_desc) : entry := (DeclObject (od_id d) 4 0 0 0, DataObject [] [] (le_bytes 4 (od_kind d))).
Definition w_data_entry (d : object_desc) (e : list N) : entry := (DeclObject (od_id d) 1 0 0 0, DataObject (od_refs d) (od_cells d) e).
Definition w_blob_entry (k j : nat) (d : object_desc) : entry := (DeclBlob (od_id d) (w_id k j) 2 0 0, DataBlobRef [] [] (w_id k j)).

Lemma in_entries k j l x : In x (w_entries k j l) <-> exists n d e, nth_error l n = Some (d, e) /\
  (x = w_kind_entry d \/ x = w_data_entry d e \/ (od_file d <> None /\ x = w_blob_entry k (j + n) d)).
Proof.
  revert j. induction l as [|[d e] l IH]; intro j; cbn [w_entries].
  - split; [intros []|]. intros ([|n] & d & e & H & _); discriminate H.
  - cbn [In]. rewrite in_app_iff, IH. split.
    + intros [<-|[<-|[H|(n & d' & e' & E & H)]]].
      * exists 0%nat, d, e. split; [reflexivity|]. now left.
      * exists 0%nat, d, e. split; [reflexivity|]. right. now left.
      * exists 0%nat, d, e. split; [reflexivity|]. right. right. rewrite Nat.add_0_r. destruct (od_file d); [|destruct H].
        destruct H as [<-|[]]. split; [discriminate|reflexivity].
      * exists (S n), d', e'. split; [exact E|]. now rewrite Nat.add_succ_r, <- Nat.add_succ_l.
    + intros ([|n] & d' & e' & E & H).
      * injection E as <- <-. rewrite Nat.add_0_r in H. destruct H as [->|[->|(N & ->)]]; [now left|right; now left|].
        right. right. left. destruct (od_file d); [now left|contradiction].
      * right. right. right. exists n, d', e'. split; [exact E|]. now rewrite Nat.add_succ_r, <- Nat.add_succ_l in H.
Qed.
Lemma in_blobs k j l n d e b : nth_error l n = Some (d, e) -> od_file d = Some b -> In (w_id k (j + n), ElBlob b) (w_blobs k j l).
Proof.
  revert j n. induction l as [|[d' e'] l IH]; intros j [|n] E F; try discriminate E; cbn [w_blobs]; rewrite in_app_iff.
  - injection E as -> ->. rewrite F, Nat.add_0_r. left. now left.
  - right. rewrite Nat.add_succ_r, <- Nat.add_succ_l. now apply IH.
Qed.
Lemma entries_nodup k j l : NoDup (map (fun p => od_id (fst p)) l) ->
  NoDup (map (fun e : entry => (decl_object_id (fst e), decl_partition (fst e))) (w_entries k j l)).
Proof.
  revert j. induction l as [|[d e] l IH]; intros j D; cbn [w_entries]; [constructor|].
  cbn [map fst] in D. inversion D as [|? ? N D']; subst.
  assert (O : forall p, ~ In (od_id d, p) (map (fun e : entry => (decl_object_id (fst e), decl_partition (fst e))) (w_entries k (S j) l))).
  { intros p I. apply in_map_iff in I as (x & Q & I). apply in_entries in I as (n & d' & e' & E & H). apply N.
    apply nth_error_In in E. apply in_map_iff. exists (d', e'). split; [|exact E].
    destruct H as [->|[->|(_ & ->)]]; cbn in *; congruence. }
  cbn [map fst decl_object_id decl_partition]. rewrite map_app. specialize (IH (S j) D').
  destruct (od_file d); cbn [map app fst decl_object_id decl_partition]; repeat constructor; try exact IH; cbn [In]; intro H;
    repeat (destruct H as [H|H]; [discriminate H|]); exact (O _ H).
Qed.

Lemma nth_unique {A B} (f : A -> B) l n m x y : NoDup (map f l) -> nth_error l n = Some x -> nth_error l m = Some y -> f x = f y -> n = m.
Proof.
  intros D E E' Q. apply (map_nth_error f) in E. apply (map_nth_error f) in E'. rewrite NoDup_nth_error in D.
  apply D; [|congruence]. apply nth_error_Some. congruence.
Qed.

Definition readies (l : list (object_desc * list N)) : Prop := Forall (fun p => od_kind (fst p) < 2 ^ 32 /\ l_oset (od_set (fst p)) (snd p)) l.

Lemma group_held c k l : NoDup (map (fun p => od_id (fst p)) l) -> readies l -> incl (w_blobs k 0 l) c ->
  holds_group c (w_entries k 0 l) (map fst l).
Proof.
  intros D R I. unfold readies in R. rewrite Forall_forall in R. refine (conj (entries_nodup k 0 l D) (conj _ _)).
  - rewrite Forall_forall. intros d H. apply in_map_iff in H as ([d' e] & Q & H). cbn in Q. subst d'.
    destruct (R _ H) as (R1 & R2). cbn [fst snd] in *. apply In_nth_error in H as (n & E). refine (conj _ (conj _ _)).
    + exists (DeclObject (od_id d) 4 0 0 0), [], [], (le_bytes 4 (od_kind d)), [].
      split; [apply in_entries; exists n, d, e; auto|]. split; [now split|]. split; [now rewrite app_nil_r|exact R1].
    + exists (DeclObject (od_id d) 1 0 0 0), e, e, [].
      split; [apply in_entries; exists n, d, e; auto|]. split; [now split|]. split; [now rewrite app_nil_r|exact R2].
    + destruct (od_file d) as [b|] eqn:F.
      * exists (DeclBlob (od_id d) (w_id k n) 2 0 0), [], [], (w_id k n). split; [|split; [now split|]].
        -- apply in_entries. exists n, d, e. split; [exact E|]. right. right. split; [congruence|reflexivity].
        -- apply I. exact (in_blobs k 0 l n d e b E F).
      * intros x Hx (X1 & X2). apply in_entries in Hx as (m & d' & e' & E' & [->|[->|(N & ->)]]); cbn in X1, X2; try discriminate X2.
        assert (m = n) as -> by exact (nth_unique _ l m n _ _ D E' E X1). rewrite E in E'. injection E' as -> ->. contradiction.
  - intros x Hx. apply in_entries in Hx as (n & d & e & E & H). apply nth_error_In in E. rewrite map_map. apply in_map_iff. exists (d, e).
    split; [|exact E]. destruct H as [->|[->|(_ & ->)]]; reflexivity.
Qed.

Lemma spaces_at k l n s : nth_error l n = Some s -> incl (w_space (k + n) s) (w_spaces k l).
Proof.
  revert k n. induction l as [|a l IH]; intros k [|n] E; try discriminate E; cbn [w_spaces].
  - injection E as ->. rewrite Nat.add_0_r. apply incl_appl, incl_refl.
  - apply incl_appr. rewrite Nat.add_succ_r, <- Nat.add_succ_l. now apply IH.
Qed.
Lemma in_items k l x : In x (w_items k l) <-> exists n s, nth_error l n = Some s /\ x = IxCell (fst (fst s)) (w_id (k + n) 0) (Serial 0 0).
Proof.
  revert k. induction l as [|a l IH]; intro k; cbn [w_items In].
  - split; [intros []|intros ([|n] & s & H & _); discriminate H].
  - rewrite IH. split.
    + intros [<-|(n & s & E & ->)]; [exists 0%nat, a|exists (S n), s]; (split; [assumption || reflexivity|]).
      * now rewrite Nat.add_0_r.
      * now rewrite Nat.add_succ_r.
    + intros ([|n] & s & E & ->); [left|right].
      * injection E as ->. now rewrite Nat.add_0_r.
      * exists n, s. split; [exact E|]. now rewrite Nat.add_succ_r.
Qed.

Lemma revision_held c items n l s : nth_error l n = Some s -> items = w_items 0 l -> incl (w_spaces 0 l) c ->
  holds_revision c items (fst (fst s)) (snd (fst s)) [w_entries n 0 (snd s)].
Proof.
  intros E -> I. pose proof (spaces_at 0 l n s E) as S0. cbn in S0.
  exists (w_id n 0), (Serial 0 0), (w_id n 0), (w_id n 0), (w_id n 0), (map (fun r => RvRoot (fst r) (snd r)) (snd (fst s)) ++ [RvGroup (w_id n 0)]).
  refine (conj _ (conj _ (conj _ (conj _ (conj _ (conj _ _)))))).
  - apply in_items. exists n, s. auto.
  - unfold w_id, nil_id. intro H. injection H. lia.
  - apply I, S0. now left.
  - right. split; [reflexivity|]. intros e' s' H. apply in_items in H as (m & s0 & _ & Q). discriminate Q.
  - apply I, S0. right. now left.
  - rewrite flat_map_app. cbn. rewrite app_nil_r. induction (snd (fst s)) as [|[r x] t IH]; cbn; congruence.
  - rewrite flat_map_app. cbn. replace (flat_map _ (map _ (snd (fst s)))) with (@nil exguid) by (induction (snd (fst s)) as [|[r x] t IH]; cbn; congruence).
    constructor; [|constructor]. exists (map fst (w_entries n 0 (snd s))), (map snd (w_entries n 0 (snd s))).
    split; [apply I, S0; right; right; now left|]. split; [now rewrite !map_length|apply combine_split].
Qed.

(** ** Ranges *)
Lemma fits_w x : id_fits x -> w_exguid_ok x = true.
Proof. intros (A & B). unfold w_exguid_ok. lia. Qed.
Lemma cell_fits_w x : cell_fits x -> w_cellid_ok x = true.
Proof. intros (A & B). unfold w_cellid_ok. now rewrite (fits_w _ A), (fits_w _ B). Qed.
Lemma w_id_fits k j : N.of_nat k + 1 < 2 ^ 128 -> N.of_nat j + 1 < 2 ^ 32 -> w_exguid_ok (w_id k j) = true.
Proof. intros A B. unfold w_exguid_ok, w_id. cbn [eg_guid eg_value]. lia. Qed.

Definition object_ready (p : object_desc * list N) : Prop :=
  id_fits (od_id (fst p)) /\ (bytes_ok (snd p) /\ N.of_nat (length (snd p)) < 2 ^ 64) /\
  Forall id_fits (od_refs (fst p)) /\ N.of_nat (length (od_refs (fst p))) < 2 ^ 64 /\
  Forall cell_fits (od_cells (fst p)) /\ N.of_nat (length (od_cells (fst p))) < 2 ^ 64 /\
  match od_file (fst p) with Some b => bytes_ok b /\ N.of_nat (length b) < 2 ^ 64 | None => True end.
Definition space_ready (s : pspace) : Prop :=
  cell_fits (fst (fst s)) /\ Forall (fun r => id_fits (fst r) /\ id_fits (snd r)) (snd (fst s)) /\
  Forall object_ready (snd s) /\ N.of_nat (length (snd s)) < 2 ^ 32.

Lemma any_forallb {A} (l : list A) : forallb (fun _ => true) l = true.
Proof. induction l; auto. Qed.

Definition w_pair_ok (x : exguid * element) : bool := w_exguid_ok (fst x) && w_body_ok (snd x).
Lemma blobs_ok k j l : N.of_nat k + 1 < 2 ^ 128 -> N.of_nat (j + length l) < 2 ^ 32 -> Forall object_ready l -> forallb w_pair_ok (w_blobs k j l) = true.
Proof.
  intro K. revert j. induction l as [|[d e] l IH]; intros j J F; cbn [w_blobs]; [reflexivity|]. cbn [length] in J.
  inversion F as [|? ? (_ & _ & _ & _ & _ & _ & B) F']; subst. cbn [fst] in B. rewrite forallb_app, IH; [|lia|exact F'].
  destruct (od_file d) as [b|]; [|reflexivity]. cbn [forallb]. unfold w_pair_ok. cbn [fst snd w_body_ok].
  rewrite w_id_fits by lia. unfold w_array_ok. rewrite any_forallb. replace (N.of_nat (length b) <? 2 ^ 64) with true by lia. reflexivity.
Qed.
Lemma entries_ok k j l : N.of_nat k + 1 < 2 ^ 128 -> N.of_nat (j + length l) < 2 ^ 32 -> Forall object_ready l ->
  forallb (fun e : entry => w_decl_ok (fst e) && w_data_ok (snd e)) (w_entries k j l) = true.
Proof.
  intro K. revert j. induction l as [|[d e] l IH]; intros j J F; cbn [w_entries]; [reflexivity|]. cbn [length] in J.
  inversion F as [|? ? (O1 & O2 & O3 & O4 & O5 & O6 & B) F']; subst. cbn [fst snd] in *.
  assert (A : forallb w_exguid_ok (od_refs d) = true) by (apply forallb_forall; intros x Hx; rewrite Forall_forall in O3; apply fits_w; auto).
  assert (C : forallb w_cellid_ok (od_cells d) = true) by (apply forallb_forall; intros x Hx; rewrite Forall_forall in O5; apply cell_fits_w; auto).
  cbn [forallb fst snd w_decl_ok w_data_ok]. rewrite forallb_app, IH; [|lia|exact F']. rewrite (fits_w _ O1).
  unfold w_array_ok. rewrite A, C, !any_forallb.
  replace (N.of_nat (length (od_refs d)) <? 2 ^ 64) with true by lia.
  replace (N.of_nat (length (od_cells d)) <? 2 ^ 64) with true by lia.
  replace (N.of_nat (length e) <? 2 ^ 64) with true by lia.
  destruct (od_file d) as [b|]; [|reflexivity]. cbn [forallb fst snd w_decl_ok w_data_ok]. rewrite (fits_w _ O1), w_id_fits by lia. reflexivity.
Qed.
Lemma forallb_map {A B} (f : B -> bool) (g : A -> B) l : forallb f (map g l) = forallb (fun x => f (g x)) l.
Proof. induction l; cbn; congruence. Qed.
Lemma forallb_and {A} (f g : A -> bool) l : forallb (fun x => f x && g x) l = forallb f l && forallb g l.
Proof. induction l as [|a l IH]; cbn; [reflexivity|]. rewrite IH. destruct (f a), (g a), (forallb f l); reflexivity. Qed.

Lemma space_ok k s : N.of_nat k + 1 < 2 ^ 128 -> space_ready s -> forallb w_pair_ok (w_space k s) = true.
Proof.
  intros K (C & R & O & L). unfold w_space. cbn [forallb]. unfold w_pair_ok at 1 2 3. cbn [fst snd w_body_ok].
  rewrite w_id_fits by (cbn; lia). rewrite blobs_ok by (auto; cbn; lia).
  rewrite !forallb_map, forallb_app, forallb_map. cbn [forallb w_rev_item_ok]. rewrite w_id_fits by (cbn; lia).
  rewrite <- forallb_and, entries_ok by (auto; cbn; lia).
  replace (forallb (fun x => w_exguid_ok (fst x) && w_exguid_ok (snd x)) (snd (fst s))) with true; [reflexivity|].
  symmetry. apply forallb_forall. intros x Hx. rewrite Forall_forall in R. destruct (R _ Hx). now rewrite !fits_w.
Qed.
Lemma spaces_ok k l : N.of_nat (k + length l) + 1 < 2 ^ 128 -> Forall space_ready l -> forallb w_pair_ok (w_spaces k l) = true.
Proof.
  revert k. induction l as [|s l IH]; intros k K F; cbn [w_spaces]; [reflexivity|]. inversion F; subst. cbn [length] in K.
  rewrite forallb_app, space_ok, IH; auto; lia.
Qed.
Lemma items_ok k l : N.of_nat (k + length l) + 1 < 2 ^ 128 -> Forall space_ready l -> forallb w_index_item_ok (w_items k l) = true.
Proof.
  revert k. induction l as [|s l IH]; intros k K F; cbn [w_items]; [reflexivity|]. inversion F as [|? ? (C & _) F']; subst. cbn [length] in K.
  cbn [forallb w_index_item_ok]. rewrite IH by (auto; lia). rewrite (cell_fits_w _ C), w_id_fits by (cbn; lia). reflexivity.
Qed.

Definition w_elems (l : list (exguid * element)) : list elem := map (fun x => Elem (fst x) (Serial 0 0) (snd x)) l.
Lemma elems_content l : content (map AElem (w_elems l)) = l.
Proof.
  unfold content, w_elems, proper. rewrite map_map. induction l as [|[a b] l IH]; cbn; congruence.
Qed.
Lemma elems_ok l : forallb w_pair_ok l = true -> forallb w_elem_ok (w_elems l) = true.
Proof.
  intro H. unfold w_elems. rewrite forallb_map. apply forallb_forall. intros x Hx. rewrite forallb_forall in H. apply H in Hx.
  unfold w_pair_ok in Hx. unfold w_elem_ok. cbn [el_id el_serial el_content]. apply andb_true_iff in Hx as (-> & ->). reflexivity.
Qed.
Lemma file_held ft c : ft < 2 ^ 128 -> forallb w_pair_ok c = true -> holds (w_file ft (w_id 0 0) (w_elems c)) (map AElem (w_elems c)).
Proof.
  intros F H. exists (w_file ft (w_id 0 0) (w_elems c)), [], ft, 1, 0, 0x638DE92FA6D44BC19A36B3FC2511A5B7, (w_id 0 0), 5.
  split; [now rewrite app_nil_r|]. left. split; [now left|]. apply plain_lenient, in_file; [exact F|reflexivity|now apply elems_ok].
Qed.

Lemma store_ok schema hc rc l : schema < 2 ^ 128 -> cell_fits hc -> cell_fits rc -> N.of_nat (length l) + 1 < 2 ^ 128 -> Forall space_ready l ->
  forallb w_pair_ok (w_store schema hc rc l) = true.
Proof.
  intros S0 H R L F. unfold w_store. cbn [forallb]. unfold w_pair_ok at 1 2. cbn [fst snd w_body_ok forallb].
  rewrite spaces_ok by (auto; cbn; lia). rewrite items_ok by (auto; cbn; lia). rewrite !cell_fits_w by assumption.
  replace (schema <? 2 ^ 128) with true by lia. reflexivity.
Qed.

(** ** Property sets *)
Definition w_props_ok (V : sval -> bool) (s : list (N * sval)) : bool :=
  (N.of_nat (length s) <? 2 ^ 16) && forallb (fun p => fst p <? 2 ^ 26) s && forallb (fun p => V (snd p)) s.
Fixpoint w_val_ok (v : sval) : bool :=
  match v with
  | SEmpty | SBool _ | SObjectId | SSpaceId | SContextId => true
  | SU8 n => n <? 2 ^ 8
  | SU16 n => n <? 2 ^ 16
  | SU32 n | SObjectIds n | SSpaceIds n | SContextIds n => n <? 2 ^ 32
  | SU64 n => n <? 2 ^ 64
  | SVec d => N.of_nat (length d) <? 2 ^ 32
  | SValues id sets => (N.of_nat (length sets) <? 2 ^ 32) && (id <? 2 ^ 32) && forallb (fun s => w_props_ok w_val_ok s) sets
  | SSet s => w_props_ok w_val_ok s
  end.
Definition w_cids_ok (l : list compactid) : bool :=
  (N.of_nat (length l) <? 2 ^ 24) && forallb (fun c => (ci_n c <? 2 ^ 8) && (ci_index c <? 2 ^ 24)) l.
Definition w_oset_ok (o : oset) : bool :=
  w_cids_ok (os_objects o) &&
  match os_spaces o with
  | None => true
  | Some (sp, None) => w_cids_ok sp
  | Some (sp, Some ctx) => w_cids_ok sp && w_cids_ok ctx
  end && w_props_ok w_val_ok (os_props o).

Lemma in_uint w v : v < 2 ^ (8 * N.of_nat w) -> l_uint w v (le_bytes w v).
Proof. intro H. split; [exact H|reflexivity]. Qed.
Lemma stype_small v : stype v <= 17.
Proof. destruct v; cbn; lia. Qed.
Lemma in_propid p : fst p <? 2 ^ 26 = true -> l_propid p (w_propid p).
Proof.
  intro H. exists (match snd p with SBool b => b | _ => false end). split; [destruct (snd p); auto|]. split; [lia|].
  unfold w_propid. replace (flag _ * 2 ^ 31) with (match snd p with SBool true => 2 ^ 31 | _ => 0 end) by (destruct (snd p) as [|[]| | | | | | | | | | | | |]; reflexivity).
  apply in_uint. pose proof (stype_small (snd p)). destruct (snd p) as [|[]| | | | | | | | | | | | |]; change (2 ^ (8 * N.of_nat 4)) with (2 ^ 32); lia.
Qed.
Lemma in_props (V : sval -> lang) w ok s : (forall p, In p s -> ok (snd p) = true -> V (snd p) (w (snd p))) -> w_props_ok ok s = true -> l_props V s (w_props w s).
Proof.
  intros H F. unfold w_props_ok in F. apply andb_true_iff in F as (F & F3). apply andb_true_iff in F as (F1 & F2).
  unfold l_props, w_props. apply cat_intro; [apply in_uint; change (2 ^ (8 * N.of_nat 2)) with (2 ^ 16); lia|]. apply cat_intro.
  - eapply in_many; [|exact F2]. intros. now apply in_propid.
  - clear F1 F2. induction s as [|p s IH]; [reflexivity|]. cbn in F3. apply andb_true_iff in F3 as (F & F3).
    apply cat_intro; [apply H; [now left|exact F]|]. apply IH; [|exact F3]. intros q Hq. apply H. now right.
Qed.
Lemma in_val v : w_val_ok v = true -> l_val v (w_val v).
Proof.
  induction v as [v Hv|id ss IH|s IH] using sval_rect'.
  - destruct v; cbn in Hv; try contradiction; cbn [w_val_ok l_val w_val]; intro H; try reflexivity;
      try (apply in_uint; apply N.ltb_lt in H; exact H).
    apply cat_intro; [apply in_uint; apply N.ltb_lt in H; exact H|reflexivity].
  - cbn [w_val_ok l_val w_val]. intro H. apply andb_true_iff in H as (H & F3). apply andb_true_iff in H as (F1 & F2).
    apply cat_intro; [apply in_uint; apply N.ltb_lt in F1; exact F1|]. apply cat_intro; [apply in_uint; apply N.ltb_lt in F2; exact F2|].
    clear F1 F2. induction IH as [|s ss Hs _ IH']; [reflexivity|]. cbn in F3. apply andb_true_iff in F3 as (F & F3).
    apply cat_intro; [|now apply IH']. eapply in_props; [|exact F]. rewrite Forall_forall in Hs. auto.
  - cbn [w_val_ok l_val w_val]. apply in_props. rewrite Forall_forall in IH. auto.
Qed.
Lemma in_ids ext absent l : w_cids_ok l = true -> l_ids ext absent l (w_ids ext absent l).
Proof.
  intro H. apply andb_true_iff in H as (H1 & H2). apply cat_intro.
  - split; [lia|]. exists 0. split; [reflexivity|]. replace (N.of_nat (length l) + 0 * 2 ^ 24) with (N.of_nat (length l)) by lia.
    apply in_uint. change (2 ^ (8 * N.of_nat 4)) with (2 ^ 32). destruct ext, absent; cbn [flag]; lia.
  - eapply in_many; [|exact H2]. intros c Hc. cbv beta in Hc. split; [lia|]. split; [lia|]. apply in_uint. change (2 ^ (8 * N.of_nat 4)) with (2 ^ 32). lia.
Qed.
Lemma in_oset o : w_oset_ok o = true -> l_oset o (w_oset o).
Proof.
  unfold w_oset_ok, l_oset, w_oset. intro H. apply andb_true_iff in H as (H & H3). apply andb_true_iff in H as (H1 & H2).
  assert (P : l_set (os_props o) (w_props w_val (os_props o))) by (eapply in_props; [|exact H3]; intros; now apply in_val).
  exists false, false, false, false. destruct (os_spaces o) as [[sp [ctx|]]|].
  - apply andb_true_iff in H2 as (H2 & H4). rewrite <- !app_assoc.
    apply cat_intro; [now apply in_ids|]. apply cat_intro; [now apply in_ids|]. apply cat_intro; [now apply in_ids|exact P].
  - rewrite <- !app_assoc. apply cat_intro; [now apply in_ids|]. apply cat_intro; [now apply in_ids|exact P].
  - apply cat_intro; [now apply in_ids|exact P].
Qed.

(** ** Bytes *)
Lemma bytes_app a b : bytes_ok a -> bytes_ok b -> bytes_ok (a ++ b).
Proof. intros. apply Forall_app. now split. Qed.
Lemma bytes_cons a b : a < 256 -> bytes_ok b -> bytes_ok (a :: b).
Proof. now constructor. Qed.
Lemma bytes_nil : bytes_ok [].
Proof. constructor. Qed.
Lemma bytes_flat {A} (f : A -> list N) l : (forall x, In x l -> bytes_ok (f x)) -> bytes_ok (flat_map f l).
Proof.
  induction l as [|a l IH]; cbn; intro H; [constructor|]. apply bytes_app; [apply H; now left|]. apply IH. intros x Hx. apply H. now right.
Qed.
Lemma w_compact_bytes v : bytes_ok (w_compact v).
Proof. unfold w_compact. destruct (v =? 0); [repeat constructor|]. apply bytes_cons; [reflexivity|apply le_bytes_ok]. Qed.
Lemma w_exguid_bytes x : bytes_ok (w_exguid x).
Proof.
  unfold w_exguid. destruct (exguid_is_nil x); [repeat constructor|]. apply bytes_cons; [reflexivity|].
  apply bytes_app; [apply le_bytes_ok|apply guid_enc_ok].
Qed.
Lemma w_cellid_bytes x : bytes_ok (w_cellid x).
Proof. apply bytes_app; apply w_exguid_bytes. Qed.
Lemma w_serial_bytes x : bytes_ok (w_serial x).
Proof. apply bytes_cons; [reflexivity|]. apply bytes_app; [apply guid_enc_ok|apply le_bytes_ok]. Qed.
Lemma w_array_bytes {A} (f : A -> list N) l : (forall x, In x l -> bytes_ok (f x)) -> bytes_ok (w_array f l).
Proof. intro H. apply bytes_app; [apply w_compact_bytes|now apply bytes_flat]. Qed.
Lemma w_h16_bytes t : bytes_ok (w_h16 t).
Proof. apply le_bytes_ok. Qed.
Lemma w_bytes_bytes d : bytes_ok d -> bytes_ok (w_array (fun b => [b]) d).
Proof. intro H. apply w_array_bytes. intros x Hx. unfold bytes_ok in H. rewrite Forall_forall in H. repeat constructor. auto. Qed.
Lemma w_fin16_bytes t : bytes_ok (w_fin16 t).
Proof. apply le_bytes_ok. Qed.
Lemma w_h32_bytes t : bytes_ok (w_h32 t).
Proof. apply le_bytes_ok. Qed.
Ltac wbytes := repeat match goal with
  | |- bytes_ok (_ ++ _) => apply bytes_app
  | |- bytes_ok (_ :: _) => apply bytes_cons; [reflexivity|]
  | |- bytes_ok [] => apply bytes_nil
  | |- bytes_ok (w_h16 _) => apply w_h16_bytes
  | |- bytes_ok (w_h32 _) => apply w_h32_bytes
  | |- bytes_ok (w_fin8 _) => apply bytes_cons; [reflexivity|apply bytes_nil]
  | |- bytes_ok (w_fin16 _) => apply w_fin16_bytes
  | |- bytes_ok (w_exguid _) => apply w_exguid_bytes
  | |- bytes_ok (w_cellid _) => apply w_cellid_bytes
  | |- bytes_ok (w_serial _) => apply w_serial_bytes
  | |- bytes_ok (w_compact _) => apply w_compact_bytes
  | |- bytes_ok (guid_enc _) => apply guid_enc_ok
  | |- bytes_ok (le_bytes _ _) => apply le_bytes_ok
  | |- bytes_ok (w_array (fun b => [b]) _) => apply w_bytes_bytes; assumption
  | |- bytes_ok (w_array _ _) => apply w_array_bytes; intros ? _
  end.
Definition data_bytes (d : odata) : Prop := match d with DataObject _ _ b => bytes_ok b | _ => True end.
Definition el_bytes (x : exguid * element) : Prop :=
  match snd x with ElBlob b => bytes_ok b | ElGroup _ data => Forall data_bytes data | _ => True end.
Lemma w_elem_bytes x : el_bytes (el_id x, el_content x) -> bytes_ok (w_elem x).
Proof.
  unfold w_elem. intro H. wbytes. unfold el_bytes in H. cbn [snd] in H. destruct (el_content x); cbn [w_body].
  - apply bytes_flat. intros [] _; cbn [w_index_item]; wbytes.
  - wbytes. apply bytes_flat. intros ? _. wbytes.
  - wbytes.
  - wbytes. apply bytes_flat. intros [] _; cbn [w_rev_item]; wbytes.
  - wbytes.
    + apply bytes_flat. intros [] _; cbn [w_decl]; wbytes.
    + apply bytes_flat. intros y Hy. rewrite Forall_forall in H. apply H in Hy. destruct y; cbn [w_data data_bytes] in *; wbytes.
  - wbytes.
Qed.
Lemma w_file_bytes ft c : Forall el_bytes c -> bytes_ok (w_file ft (w_id 0 0) (w_elems c)).
Proof.
  intro H. unfold w_file. wbytes. { apply bytes_flat. intros x Hx. unfold w_elems in Hx. apply in_map_iff in Hx as (y & <- & Hy).
    rewrite Forall_forall in H. apply w_elem_bytes. destruct y. now apply H. }
Qed.
Lemma space_bytes k s : space_ready s -> Forall el_bytes (w_space k s).
Proof.
  intros (_ & _ & O & _). unfold w_space. constructor; [exact I|]. constructor; [exact I|]. constructor.
  - unfold el_bytes. cbn [snd]. rewrite Forall_forall in *. intros x Hx. apply in_map_iff in Hx as (y & <- & Hy).
    apply in_entries in Hy as (n & d & e & Hn & H). apply nth_error_In, O in Hn. destruct Hn as (_ & (B & _) & _). cbn [snd] in B.
    destruct H as [->|[->|(_ & ->)]]; unfold w_kind_entry, w_data_entry, w_blob_entry; cbn [snd data_bytes]; [apply le_bytes_ok|exact B|exact I].
  - generalize 0%nat. induction (snd s) as [|[d e] l IH]; intro j; cbn [w_blobs]; [constructor|]. inversion O as [|? ? (_ & _ & _ & _ & _ & _ & B) O']; subst.
    apply Forall_app. split; [|now apply IH]. cbn [fst] in B. destruct (od_file d); [|constructor]. constructor; [apply B|constructor].
Qed.
Lemma store_bytes schema hc rc l : Forall space_ready l -> Forall el_bytes (w_store schema hc rc l).
Proof.
  intro H. unfold w_store. constructor; [exact I|]. constructor; [exact I|]. generalize 0%nat.
  induction H as [|s l Hs _ IH]; intro k; cbn [w_spaces]; [constructor|]. apply Forall_app. split; [now apply space_bytes|apply IH].
Qed.

Fixpoint val_bytes (v : sval) : Prop :=
  match v with
  | SVec d => bytes_ok d
  | SValues _ sets => (fix go ss := match ss with [] => True | s :: r => (fix go' s := match s with [] => True | p :: r => val_bytes (snd p) /\ go' r end) s /\ go r end) sets
  | SSet s => (fix go' s := match s with [] => True | p :: r => val_bytes (snd p) /\ go' r end) s
  | _ => True
  end.
Fixpoint set_bytes (s : list (N * sval)) : Prop := match s with [] => True | p :: r => val_bytes (snd p) /\ set_bytes r end.
Lemma w_props_bytes s : (forall p, In p s -> val_bytes (snd p) -> bytes_ok (w_val (snd p))) -> set_bytes s -> bytes_ok (w_props w_val s).
Proof.
  intros H F. unfold w_props. apply bytes_app; [apply le_bytes_ok|]. apply bytes_app; [apply bytes_flat; intros ? _; apply le_bytes_ok|].
  induction s as [|p s IH]; [constructor|]. destruct F as (F1 & F2). apply bytes_app; [apply H; [now left|exact F1]|].
  apply IH; [|exact F2]. intros q Hq. apply H. now right.
Qed.
Lemma w_val_bytes v : val_bytes v -> bytes_ok (w_val v).
Proof.
  induction v as [v Hv|id ss IH|s IH] using sval_rect'.
  - destruct v; cbn in Hv; try contradiction; cbn [val_bytes w_val]; intro H; wbytes; exact H.
  - cbn [val_bytes w_val]. intro H. apply bytes_app; [apply le_bytes_ok|]. apply bytes_app; [apply le_bytes_ok|].
    induction IH as [|s ss Hs _ IH']; [constructor|]. destruct H as (H1 & H2). apply bytes_app; [|now apply IH'].
    rewrite Forall_forall in Hs. apply w_props_bytes; [exact Hs|]. clear - H1. induction s; [exact I|]. destruct H1. split; auto.
  - cbn [val_bytes w_val]. intro H. rewrite Forall_forall in IH. apply w_props_bytes; [exact IH|]. clear - H. induction s; [exact I|]. destruct H. split; auto.
Qed.
Lemma w_ids_bytes x y l : bytes_ok (w_ids x y l).
Proof. apply bytes_app; [apply le_bytes_ok|]. apply bytes_flat. intros ? _. apply le_bytes_ok. Qed.
Lemma w_oset_bytes o : set_bytes (os_props o) -> bytes_ok (w_oset o).
Proof.
  intro H. unfold w_oset. apply bytes_app.
  - destruct (os_spaces o) as [[sp [ctx|]]|]; wbytes; apply w_ids_bytes.
  - apply w_props_bytes; [|exact H]. intros. now apply w_val_bytes.
Qed.

(** ** Every description *)
Lemma ids_count ext absent l e : l_ids ext absent l e -> N.of_nat (length l) < 2 ^ 24.
Proof. intros (a & b & _ & (H & _) & _). exact H. Qed.
Lemma oset_counts o e : l_oset o e -> N.of_nat (length (os_objects o)) < 2 ^ 24 /\
  N.of_nat match os_spaces o with None => 0 | Some (s, None) => length s | Some (s, Some c) => length c + length s end < 2 ^ 25.
Proof.
  intros (b1 & b2 & b3 & b4 & H). destruct (os_spaces o) as [[s [c|]]|].
  - destruct H as (? & ? & _ & H1 & ? & ? & _ & H2 & ? & ? & _ & H3 & _). apply ids_count in H1, H2, H3. lia.
  - destruct H as (? & ? & _ & H1 & ? & ? & _ & H2 & _). apply ids_count in H1, H2. lia.
  - destruct H as (? & ? & _ & H1 & _). apply ids_count in H1. lia.
Qed.
Lemma prepare l : Forall object_in_range l -> Forall object_fits l ->
  exists p, map fst p = l /\ readies p /\ Forall object_ready p.
Proof.
  induction l as [|d l IH]; intros R F; [exists []; repeat split; constructor|].
  inversion R as [|? ? (R1 & R2 & (e & E & EB & L) & R3 & R4 & R5) R']; subst. inversion F as [|? ? (F1 & F2) F']; subst.
  destruct (IH R' F') as (p & <- & P1 & P2). exists ((d, e) :: p). split; [reflexivity|].
  pose proof (oset_counts _ _ E) as (C1 & C2).
  split; constructor; auto. unfold object_ready. cbn [fst snd].
  refine (conj R1 (conj (conj EB L) (conj R3 (conj _ (conj R4 (conj _ R5)))))).
  - rewrite F1. lia.
  - rewrite F2. lia.
Qed.

Definition header_set (D : store_desc) : oset := OSet [] None
  ((0x1D94, SVec (guid_enc (td_identity D))) :: (0x1D95, SVec (guid_enc (td_ancestor D))) :: (0x1D93, SU32 (td_crc D))
   :: match td_version D with Some v => [(0x1D99, SU32 v)] | None => [] end).
Definition header_desc (D : store_desc) : object_desc := ObjectDesc (ExGuid 1 1) 0x20001 (header_set D) [] [] None.

Lemma cellid_dec (x y : cellid) : {x = y} + {x <> y}.
Proof. destruct (cellid_eqb x y) eqn:E; [left; now apply cellid_eqb_eq|right; intro H; apply cellid_eqb_eq in H; congruence]. Qed.
Lemma fresh (l : list cellid) : exists c, ~ In c l /\ (N.of_nat (length l) < 2 ^ 100 -> cell_fits c).
Proof.
  set (f := fun i : nat => (ExGuid (N.of_nat i + 1) 1, ExGuid 1 1) : cellid).
  assert (ND : NoDup (map f (seq 0 (S (length l))))).
  { apply FinFun.Injective_map_NoDup; [|apply seq_NoDup]. intros i j H. injection H. lia. }
  destruct (List.Exists_dec (fun c => ~ In c l) (map f (seq 0 (S (length l))))) as [E|E].
  { intro c. destruct (in_dec cellid_dec c l); [right; tauto|now left]. }
  - apply Exists_exists in E as (c & I & N). exists c. split; [exact N|]. intro L. apply in_map_iff in I as (i & <- & I).
    apply in_seq in I. unfold cell_fits, id_fits, f. cbn. lia.
  - exfalso. assert (I : incl (map f (seq 0 (S (length l)))) l).
    { intros c H. destruct (in_dec cellid_dec c l); [assumption|]. exfalso. apply E, Exists_exists. eauto. }
    apply (NoDup_incl_length ND) in I. rewrite map_length, seq_length in I. lia.
Qed.

Lemma prepare_spaces l : Forall (fun s : cellid * space_desc => cell_fits (fst s) /\ space_in_range (snd s)) l -> Forall (fun s => space_fits (snd s)) l ->
  exists p : list pspace, Forall2 (fun s (p : pspace) => fst (fst p) = fst s /\ snd (fst p) = map (fun r => (role_id (fst r), snd r)) (sd_roots (snd s)) /\
                        map fst (snd p) = sd_objects (snd s) /\ readies (snd p) /\ space_ready p) l p.
Proof.
  induction l as [|[c d] l IH]; intros R F; [exists []; constructor|].
  inversion R as [|? ? (R0 & R1 & R2 & R3) R']; subst. inversion F as [|? ? (_ & _ & F1) F']; subst. cbn [fst snd] in *.
  destruct (IH R' F') as (p & P). destruct (prepare _ R2 F1) as (o & O0 & O1 & O2).
  exists ((c, map (fun r => (role_id (fst r), snd r)) (sd_roots d), o) :: p). constructor; [|exact P]. cbn [fst snd].
  refine (conj eq_refl (conj eq_refl (conj O0 (conj O1 _)))). unfold space_ready. cbn [fst snd]. rewrite <- O0, map_length in R3.
  refine (conj R0 (conj _ (conj O2 _))); [|lia].
  rewrite Forall_forall in *. intros x H. apply in_map_iff in H as (r & <- & H). cbn [fst snd]. split; [|now apply R1].
  destruct (fst r); split; reflexivity.
Qed.

Lemma space_held c l n s cell d : nth_error l n = Some s -> incl (w_spaces 0 l) c ->
  fst (fst s) = cell -> snd (fst s) = map (fun r => (role_id (fst r), snd r)) (sd_roots d) -> map fst (snd s) = sd_objects d -> readies (snd s) ->
  NoDup (map od_id (sd_objects d)) -> holds_space c (w_items 0 l) cell d.
Proof.
  intros E I <- Q1 Q2 R D. exists [w_entries n 0 (snd s)], [sd_objects d]. refine (conj _ (conj _ _)).
  - rewrite <- Q1. now apply (revision_held c _ n l s).
  - constructor; [|constructor]. rewrite <- Q2. apply group_held; [|exact R|].
    + rewrite <- Q2, map_map in D. exact D.
    + intros x Hx. apply I, (spaces_at 0 l n s E). right. right. right. exact Hx.
  - cbn. now rewrite app_nil_r.
Qed.

Lemma header_encodes D : store_in_range D -> l_oset (header_set D) (w_oset (header_set D)) /\ (length (w_oset (header_set D)) <= 100)%nat.
Proof.
  intros (_ & R1 & R2 & R3 & R4 & _). split.
  - apply in_oset. unfold w_oset_ok, header_set. cbn [os_objects os_spaces os_props]. unfold w_props_ok. cbn [forallb fst snd w_val_ok].
    rewrite !guid_enc_length. replace (td_crc D <? 2 ^ 32) with true by lia. destruct (td_version D) as [v|]; cbn [forallb fst snd w_val_ok]; [|reflexivity].
    replace (v <? 2 ^ 32) with true by lia. reflexivity.
  - unfold w_oset, w_ids, w_props, header_set. cbn [os_objects os_spaces os_props].
    destruct (td_version D); cbn [flat_map snd w_val]; unfold w_propid; rewrite !app_length, !le_bytes_length, !guid_enc_length; cbn; lia.
Qed.

Lemma items_cells k l : flat_map (fun i => match i with IxCell c _ _ => [c] | _ => [] end) (w_items k l) = map (fun s => fst (fst s)) l.
Proof. revert k. induction l as [|s l IH]; intro k; cbn; [reflexivity|]. now rewrite IH. Qed.
Lemma items_revisions k l : flat_map (fun i => match i with IxRevision r _ _ => [r] | _ => [] end) (w_items k l) = [].
Proof. revert k. induction l as [|s l IH]; intro k; cbn; [reflexivity|]. now rewrite IH. Qed.

Definition prepared (s : cellid * space_desc) (p : pspace) : Prop :=
  fst (fst p) = fst s /\ snd (fst p) = map (fun r => (role_id (fst r), snd r)) (sd_roots (snd s)) /\
  map fst (snd p) = sd_objects (snd s) /\ readies (snd p) /\ space_ready p.
Lemma store_author_with D p : store_fits D -> store_in_range D -> Forall2 prepared ((td_cell D, td_root D) :: td_spaces D) p ->
  exists hc els, let d := w_file 0x109ADD3F911B49F5A5D01791EDC8AED8 (w_id 0 0) (w_elems (w_store (td_schema D) hc (td_cell D)
      (((hc, [], [(header_desc D, w_oset (header_set D))]) : pspace) :: p))) in
    bytes_ok d /\ holds d els /\ holds_store (content els) D.
Proof.
  intros (F1 & F2' & F3) R P. pose proof R as (R1 & R2 & R3 & R4 & R5 & K2 & R6 & R7 & R8). set (rc := td_cell D) in *. inversion F2' as [|? ? K4 F2]; subst.
  destruct (fresh (rc :: map fst (td_spaces D))) as (hc & H1' & H2). cbn [length] in H2. rewrite map_length in H2. specialize (H2 ltac:(lia)).
  assert (K3 : hc <> rc) by (intros ->; apply H1'; now left). assert (H1 : ~ In hc (map fst (td_spaces D))) by (intro; apply H1'; now right). clear H1'.
  inversion P as [|? pr ? ps (Q1 & Q2 & Q3 & Q4 & Q5) P']; subst. cbn [fst snd] in *.
  destruct (header_encodes D R) as (E & L).
  set (hs := (hc, [], [(header_desc D, w_oset (header_set D))]) : pspace). set (l := hs :: pr :: ps).
  set (c := w_store (td_schema D) hc rc l).
  assert (RD : Forall space_ready l).
  { constructor; [|constructor; [exact Q5|]].
    - refine (conj H2 (conj (Forall_nil _) (conj _ _))); [|reflexivity]. constructor; [|constructor]. unfold object_ready, header_desc. cbn [fst snd od_id od_refs od_cells od_file].
      refine (conj _ (conj _ (conj (Forall_nil _) (conj _ (conj (Forall_nil _) (conj _ I)))))); [split; reflexivity| |reflexivity..]. split; [|lia]. apply w_oset_bytes. unfold header_set. cbn [os_props set_bytes snd val_bytes].
      destruct (td_version D); (split; [apply guid_enc_ok|split; [apply guid_enc_ok|repeat split]]).
    - clear - P'. induction P' as [|? ? ? ? (_ & _ & _ & _ & X) _ IH]; constructor; auto. }
  assert (LL : length ps = length (td_spaces D)) by (clear - P'; induction P'; cbn; congruence).
  exists hc, (map AElem (w_elems c)). cbv zeta. fold hs. fold l. fold c. split; [now apply w_file_bytes, store_bytes|]. split.
  { apply file_held; [reflexivity|]. apply store_ok; auto. unfold l. cbn [length]. clear - LL R8. unfold pspace in *. lia. }
  rewrite elems_content. assert (I : incl (w_spaces 0 l) c) by (intros x Hx; right; right; exact Hx).
  exists (w_id 0 0), (w_items 0 l), (w_id 0 0), [(ExGuid 0x1A5A319CC26B41AAB9C59BD8C44E07D4 1, hc); (ExGuid 0x84DEFAB9AAA34A0DA3A8520C77AC7073 2, rc)], hc. cbv zeta. fold rc.
  assert (CE : map (fun s : pspace => fst (fst s)) ps = map fst (td_spaces D)).
  { clear - P'. induction P' as [|? ? ? ? (X & _) _ IH]; cbn; congruence. }
  refine (conj (store_unambiguous _ _ _ _) (conj (or_introl eq_refl) (conj (or_intror (or_introl eq_refl)) (conj _ (conj _ (conj _ (conj _ (conj _ (conj _ (conj _ _)))))))))).
  - intro x. cbn [In]. split; [intros [Q|[Q|[]]]; congruence|intros ->; now left].
  - intro x. cbn [In]. split; [intros [Q|[Q|[]]]; congruence|intros ->; right; now left].
  - rewrite items_cells. change (NoDup (hc :: fst (fst pr) :: map (fun s : pspace => fst (fst s)) ps)). rewrite CE, Q1. constructor; [|constructor; auto]. cbn [In]. intuition.
  - rewrite items_revisions. constructor.
  - exists [], [], [w_kind_entry (header_desc D)], (DeclObject (ExGuid 1 1) 1 0 0 0), [], [], (w_oset (header_set D)), [], [], (header_set D).
    refine (conj _ (conj _ (conj eq_refl (conj E (conj R2 (conj R3 (conj _ (conj _ (conj _ _))))))))).
    + rewrite app_nil_r. exact (revision_held c (w_items 0 l) 0 l hs eq_refl eq_refl I).
    + intros x [<-|[]]. cbn. discriminate.
    + destruct (td_version D) eqn:V; unfold header_set; rewrite V; cbn; eauto.
    + destruct (td_version D) eqn:V; unfold header_set; rewrite V; cbn; eauto.
    + destruct (td_version D) eqn:V; unfold header_set; rewrite V; cbn; eauto.
    + destruct (td_version D) eqn:V; unfold header_set; rewrite V; cbn; eauto.
  - apply (space_held c l 1 pr); auto. apply F1.
  - rewrite Forall_forall. intros x Hx. apply In_nth_error in Hx as (n & Hn).
    assert (exists s, nth_error ps n = Some s /\ fst (fst s) = fst x /\ snd (fst s) = map (fun r => (role_id (fst r), snd r)) (sd_roots (snd x)) /\
                        map fst (snd s) = sd_objects (snd x) /\ readies (snd s)) as (s & Hs & S1 & S2 & S3 & S4).
    { clear - P' Hn. revert n Hn. induction P' as [|a b ? ? (X1 & X2 & X3 & X4 & _) _ IH]; intros [|n] Hn; try discriminate Hn.
      - injection Hn as ->. exists b. auto.
      - now apply IH. }
    apply nth_error_In in Hn as Hx. assert (J : In (fst x) (map fst (td_spaces D))) by now apply in_map.
    split; [intro Q; rewrite Q in J; contradiction|]. split; [intro Q; rewrite Q in J; contradiction|].
    apply (space_held c l (S (S n)) s); auto. rewrite Forall_forall in F3. now apply F3.
  - intros x m s H. right. apply in_items in H as (n & y & Hn & Q). injection Q as -> _ _.
    destruct n as [|[|n]]; cbn in Hn; [injection Hn as <-; now left|injection Hn as <-; right; now left|].
    right. right. rewrite <- CE. apply in_map_iff. exists y. split; [reflexivity|]. now apply nth_error_In in Hn.
Qed.
Lemma store_author D : store_fits D -> store_in_range D -> exists d els, bytes_ok d /\ holds d els /\ holds_store (content els) D.
Proof.
  intros F R. pose proof F as (F1 & _ & F3). pose proof R as (_ & _ & _ & _ & _ & K2 & R6 & R7 & _).
  destruct (prepare_spaces ((td_cell D, td_root D) :: td_spaces D)) as (p & P); [constructor; auto..|].
  destruct (store_author_with D p F R P) as (hc & els & H). eauto.
Qed.
