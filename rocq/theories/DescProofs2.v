(** Objects described field by field: when they fit the format; note tags and run
    data. *)
From Coq Require Import Lia ZifyBool ZifyNat ZifyN.
From Verif Require Import Base BaseProofs Codec SpecCodec CodecProofs CodecRT2 Package SpecPackage PackageRT PropSet PropIds SpecPropSet
  PropSetRT Store SpecStore StoreProofs Shapes Props Nodes Doc SpecRefs RefsProofs SpecValues SpecNodes SpecAccept SpecSame ExampleFile WriterProofs SpecFile AuthorProofs DescProofs.

Definition pgood (n : nat) (p : aprop) : Prop :=
  w_val_ok (ap_val p) = true /\ val_bytes (ap_val p) /\ N.of_nat (length (w_val (ap_val p))) < 2 ^ 56 /\ regular_prop p /\
  Forall id_fits (ap_refs p) /\ Forall cell_fits (ap_cells p) /\ (length (ap_refs p) + length (ap_cells p) <= n)%nat.
Definition fgood (n : nat) (x : option aprop) : Prop := match x with None => True | Some p => pgood n p /\ counted p end.
Inductive fields_good : list (N * option aprop) -> nat -> Prop :=
| fg_nil : fields_good [] 0
| fg_cons r x fs n m : fgood n x -> fields_good fs m -> fields_good ((r, x) :: fs) (n + m).
Definition last_good (n : nat) (x : option (N * aprop)) : Prop := match x with None => True | Some (_, p) => pgood n p end.
Definition file_good (f : option (list N)) : Prop := match f with Some b => bytes_ok b /\ N.of_nat (length b) < 2 ^ 64 | None => True end.
Definition ao_good (a : aobject) : Prop :=
  NoDup (ao_ids a) /\ (exists n m, fields_good (ao_fields a) n /\ last_good m (ao_last a) /\ N.of_nat (n + m) < 2 ^ 24) /\
  (length (ao_fields a) < 100)%nat /\ id_fits (ao_id a) /\ ao_kind a < 2 ^ 32 /\ file_good (ao_file a).

Lemma pid_small r : pid_id r < 2 ^ 26.
Proof. unfold pid_id. change 0x3ffffff with (N.ones 26). rewrite N.land_ones. now apply N.mod_lt. Qed.

Lemma good_wf a : ao_good a -> ao_wf a.
Proof.
  intros (D & (n & m & F & L & _) & _). refine (conj D (conj _ (conj _ _))).
  - clear L D. induction F as [|r x fs n0 m0 X _ IH]; constructor; [|exact IH]. unfold counted_field. cbn. destruct x; [apply X|exact I].
  - clear L D. induction F as [|r x fs n0 m0 X _ IH]; constructor; [|exact IH]. unfold regular_field. cbn. destruct x; [apply X|exact I].
  - destruct (ao_last a) as [[r p]|]; [|exact I]. apply L.
Qed.
Lemma given_good fs n : fields_good fs n -> Forall (fun p => fst p < 2 ^ 26 /\ pgood n (snd p)) (given fs) /\
  (length (refs_of (given fs)) + length (cells_of (given fs)) <= n)%nat /\ (length (given fs) <= length fs)%nat.
Proof.
  assert (W : forall n m p, (n <= m)%nat -> pgood n p -> pgood m p).
  { intros n0 m0 p L (A1 & A2 & A3 & A4 & A5 & A6 & A7). refine (conj A1 (conj A2 (conj A3 (conj A4 (conj A5 (conj A6 _)))))). lia. }
  induction 1 as [|r x fs n0 m0 X _ (IH & C & L)]; [split; [constructor|split; cbn; lia]|].
  assert (IH' : Forall (fun p => fst p < 2 ^ 26 /\ pgood (n0 + m0) (snd p)) (given fs)).
  { eapply Forall_impl; [|exact IH]. intros p (P1 & P2). split; [exact P1|]. eapply W; [|exact P2]. lia. }
  destruct x as [p|]; cbn [given flat_map fst snd app]; fold (given fs).
  - destruct X as (X & _). split.
    + constructor; [|exact IH']. split; [apply pid_small|]. eapply W; [|exact X]. lia.
    + destruct X as (_ & _ & _ & _ & _ & _ & X). cbn [refs_of cells_of flat_map snd length]. rewrite !app_length. unfold refs_of, cells_of in C. lia.
  - split; [exact IH'|]. cbn [length]. lia.
Qed.
Lemma props_good a : ao_good a -> exists n, N.of_nat n < 2 ^ 24 /\ Forall (fun p => fst p < 2 ^ 26 /\ pgood n (snd p)) (ao_props a) /\
  (length (refs_of (ao_props a)) + length (cells_of (ao_props a)) <= n)%nat /\ (length (ao_props a) <= 100)%nat.
Proof.
  intros (D & (n & m & F & L & B) & C & _). exists (n + m)%nat. split; [exact B|]. apply given_good in F as (F & K & G).
  assert (W : forall n m p, (n <= m)%nat -> pgood n p -> pgood m p).
  { intros n0 m0 p L0 (A1 & A2 & A3 & A4 & A5 & A6 & A7). refine (conj A1 (conj A2 (conj A3 (conj A4 (conj A5 (conj A6 _)))))). lia. }
  unfold ao_props, refs_of, cells_of. rewrite !flat_map_app, !app_length. unfold refs_of, cells_of in K. split.
  - apply Forall_app. split; [eapply Forall_impl; [|exact F]; intros p (P1 & P2); split; [exact P1|]; eapply W; [|exact P2]; lia|].
    destruct (ao_last a) as [[r p]|]; cbn; [|constructor]. constructor; [|constructor]. split; [apply pid_small|]. eapply W; [|exact L]. lia.
  - destruct (ao_last a) as [[r p]|]; cbn [given_last flat_map snd length app]; [|cbn; lia].
    destruct L as (_ & _ & _ & _ & _ & _ & L). rewrite !app_nil_r. lia.
Qed.

Lemma cids_ok b n : b < 2 ^ 8 -> N.of_nat n < 2 ^ 24 -> w_cids_ok (cids b n) = true.
Proof.
  intros B H. unfold w_cids_ok. rewrite cids_length. apply andb_true_iff. split; [lia|]. apply forallb_forall. intros c I.
  unfold cids in I. apply in_map_iff in I as (i & <- & I). apply in_seq in I. cbn [ci_n ci_index]. lia.
Qed.
Lemma w_ids_length x y l : length (w_ids x y l) = (4 + 4 * length l)%nat.
Proof.
  unfold w_ids. rewrite app_length, le_bytes_length. f_equal. induction l as [|c l IH]; [reflexivity|]. cbn [flat_map]. rewrite app_length, IH.
  unfold w_cid. rewrite le_bytes_length. cbn [length]. lia.
Qed.
Lemma w_props_length s b : Forall (fun p => N.of_nat (length (w_val (snd p))) <= b) s ->
  N.of_nat (length (w_props w_val s)) <= 2 + (4 + b) * N.of_nat (length s).
Proof.
  intro F. unfold w_props. rewrite !app_length, le_bytes_length.
  assert (A : length (flat_map w_propid s) = (4 * length s)%nat).
  { clear F. induction s as [|p s IH]; [reflexivity|]. cbn [flat_map length]. rewrite app_length, IH. unfold w_propid. rewrite le_bytes_length. lia. }
  rewrite A. set (go := fix go (s : list (N * sval)) := match s with [] => [] | p :: r => w_val (snd p) ++ go r end).
  enough (E : N.of_nat (length (go s)) <= b * N.of_nat (length s)) by lia.
  clear A. induction F as [|p s P _ IH]; [cbn; lia|]. cbn [go length]. fold go. rewrite app_length. lia.
Qed.

Lemma described_encodes a : ao_good a -> l_oset (ao_set a) (w_oset (ao_set a)) /\ bytes_ok (w_oset (ao_set a)) /\ N.of_nat (length (w_oset (ao_set a))) < 2 ^ 64.
Proof.
  intro G. destruct (props_good a G) as (n & B & F & C & L). destruct G as (_ & _ & _ & Hid & Hk & Hf).
  assert (W : w_oset_ok (ao_set a) = true /\ set_bytes (os_props (ao_set a)) /\
        Forall (fun p => N.of_nat (length (w_val (snd p))) <= 2 ^ 56) (os_props (ao_set a))).
      { refine (conj _ (conj _ _)).
        - unfold w_oset_ok, ao_set. cbn [os_objects os_spaces os_props]. apply andb_true_iff. split; [apply andb_true_iff; split|].
          + apply cids_ok; [reflexivity|lia].
          + destruct (cells_of (ao_props a)) eqn:E; [reflexivity|]. apply cids_ok; [reflexivity|]. rewrite <- E in *. cbn [length] in *. lia.
          + unfold w_props_ok. rewrite map_length. apply andb_true_iff. split; [apply andb_true_iff; split; [lia|]|];
            apply forallb_forall; intros q Q; apply in_map_iff in Q as (p & <- & P); rewrite Forall_forall in F; destruct (F p P) as (F1 & F2); cbn [fst snd].
            * now apply N.ltb_lt. * apply F2.
        - cbn [ao_set os_props]. clear - F. induction F as [|p l (_ & P) _ IH]; [exact I|]. split; [apply P|exact IH].
        - cbn [ao_set os_props]. clear - F. induction F as [|p l (_ & P) _ IH]; [constructor|]. constructor; [|exact IH]. cbn [snd].
          destruct P as (_ & _ & P & _). lia. }
      destruct W as (W1 & W2 & W3). refine (conj (in_oset _ W1) (conj (w_oset_bytes _ W2) _)).
      apply w_props_length in W3. unfold w_oset. rewrite app_length. unfold ao_set in *. cbn [os_objects os_spaces os_props] in *. rewrite map_length in W3.
      destruct (cells_of (ao_props a)) eqn:E; rewrite <- ?E in *.
      * rewrite w_ids_length, cids_length. cbn [length] in C. lia.
      * rewrite app_length, !w_ids_length, !cids_length. lia.
Qed.
Lemma described_range a : ao_good a -> object_in_range (describe a) /\ object_fits (describe a).
Proof.
  intro G0. pose proof G0 as G. destruct (props_good a G) as (n & B & F & C & L). destruct G as (_ & _ & _ & Hid & Hk & Hf). split.
  - refine (conj Hid (conj Hk (conj _ (conj _ (conj _ Hf))))).
    + exists (w_oset (ao_set a)). apply described_encodes. exact G0.
    + cbn [describe od_refs]. clear - F. unfold refs_of. induction F as [|p l (_ & P) _ IH]; [constructor|]. cbn [flat_map]. apply Forall_app. split; [apply P|exact IH].
    + cbn [describe od_cells]. clear - F. unfold cells_of. induction F as [|p l (_ & P) _ IH]; [constructor|]. cbn [flat_map]. apply Forall_app. split; [apply P|exact IH].
  - unfold object_fits. cbn [describe od_refs od_cells od_set ao_set os_objects os_spaces]. rewrite cids_length. split; [reflexivity|].
    destruct (cells_of (ao_props a)) eqn:E; [reflexivity|]. rewrite <- E. now rewrite cids_length.
Qed.

(** ** Fields *)
Definition vgood (s : sval) : Prop :=
  w_val_ok s = true /\ val_bytes s /\ N.of_nat (length (w_val s)) < 2 ^ 27 /\
  taken own_objects s = 0 /\ taken own_spaces s = 0 /\ regular own_objects s /\ regular own_spaces s.
(** Written as [s], the value of the property satisfies [P]. *)
Definition writes (P : option pvalue -> Prop) (s : option sval) : Prop :=
  match s with None => P None | Some s => vgood s /\ forall v, val_means s v -> P (Some v) end.
Definition fv (s : option sval) : option aprop := option_map (fun s => AProp s [] []) s.
Definition frefs (l : list exguid) : option aprop := Some (AProp (SObjectIds (N.of_nat (length l))) l []).
Definition fref (x : option exguid) : option aprop := option_map (fun r => AProp SObjectId [r] []) x.
Definition fspaces (l : list cellid) : option aprop := Some (AProp (SSpaceIds (N.of_nat (length l))) [] l).

Lemma fg_fv P s : writes P s -> fgood 0 (fv s).
Proof.
  destruct s as [s|]; cbn; [|auto]. intros ((A1 & A2 & A3 & A4 & A5 & A6 & A7) & _). split.
  - refine (conj A1 (conj A2 (conj _ (conj (conj A6 A7) (conj _ (conj _ _)))))); cbn; [lia|constructor|constructor|lia].
  - split; cbn; assumption.
Qed.
Lemma fg_refs l : Forall id_fits l -> N.of_nat (length l) < 2 ^ 24 -> fgood (length l) (frefs l).
Proof.
  intros F L. split.
  - refine (conj _ (conj I (conj _ (conj (conj I I) (conj F (conj _ _)))))).
    + cbn [ap_val w_val_ok]. apply N.ltb_lt. lia.
    + cbn [ap_val w_val]. rewrite le_bytes_length. reflexivity.
    + constructor.
    + cbn. lia.
  - split; reflexivity.
Qed.
Lemma fg_ref x : (forall r, x = Some r -> id_fits r) -> fgood 1 (fref x).
Proof.
  intro F. destruct x as [r|]; [|exact I]. split.
  - refine (conj eq_refl (conj I (conj eq_refl (conj (conj I I) (conj _ (conj _ _)))))).
    + constructor; [now apply F|constructor]. + constructor. + cbn. lia.
  - split; reflexivity.
Qed.
Lemma fg_spaces l : Forall cell_fits l -> N.of_nat (length l) < 2 ^ 24 -> fgood (length l) (fspaces l).
Proof.
  intros F L. split.
  - refine (conj _ (conj I (conj _ (conj (conj I I) (conj _ (conj F _)))))).
    + cbn [ap_val w_val_ok]. apply N.ltb_lt. lia.
    + cbn [ap_val w_val]. rewrite le_bytes_length. reflexivity.
    + constructor.
    + cbn. lia.
  - split; reflexivity.
Qed.

Definition misses (raw : N) (a : aobject) : bool := match ao_last a with Some (r, _) => negb (pid_id r =? pid_id raw) | None => true end.
Lemma field_prop raw a x : misses raw a = true -> field_at raw (ao_fields a) = x -> prop_at raw a = x.
Proof.
  unfold misses, prop_at. intros M ->. destruct x; [reflexivity|]. destruct (ao_last a) as [[r p]|]; [|reflexivity].
  now destruct (pid_id r =? pid_id raw).
Qed.

Definition opt_rel {A} (R : pvalue -> A -> Prop) (x : option A) (s : option pvalue) : Prop :=
  match s with None => x = None | Some v => exists a, R v a /\ x = Some a end.
Definition req_rel {A} (R : pvalue -> A -> Prop) (x : A) (s : option pvalue) : Prop := exists v, s = Some v /\ R v x.
Definition def_rel {A} (R : pvalue -> A -> Prop) (d x : A) (s : option pvalue) : Prop := match s with None => x = d | Some v => R v x end.

Section ReadValues.
  Context (a : aobject) (o : object).
  Context (W : ao_wf a) (M : set_means (os_props (ao_set a)) (op_props (ob_props o))).
  Lemma r_value raw P s : misses raw a = true -> field_at raw (ao_fields a) = fv s -> writes P s -> P (stored o raw).
  Proof.
    intros Hm Hf Hw. apply field_prop in Hf; [|exact Hm]. destruct s as [s|]; cbn in Hf.
    - destruct (stored_some a o W M raw _ Hf) as (v & -> & V). now apply Hw.
    - rewrite (stored_none a o W M raw Hf). exact Hw.
  Qed.
  Lemma r_optional {A} raw (R : pvalue -> A -> Prop) x s :
    misses raw a = true -> field_at raw (ao_fields a) = fv s -> writes (opt_rel R x) s -> optional o raw R x.
  Proof. intros Hm Hf Hw. exact (r_value raw _ s Hm Hf Hw). Qed.
  Lemma r_required {A} raw (R : pvalue -> A -> Prop) x s :
    misses raw a = true -> field_at raw (ao_fields a) = fv s -> writes (req_rel R x) s -> required o raw R x.
  Proof. intros Hm Hf Hw. exact (r_value raw _ s Hm Hf Hw). Qed.
  Lemma r_defaulted {A} raw (R : pvalue -> A -> Prop) d x s :
    misses raw a = true -> field_at raw (ao_fields a) = fv s -> writes (def_rel R d x) s -> defaulted o raw R d x.
  Proof. intros Hm Hf Hw. exact (r_value raw _ s Hm Hf Hw). Qed.
  Lemma r_no_value raw : misses raw a = true -> field_at raw (ao_fields a) = None -> stored o raw = None.
  Proof. intros Hm Hf. apply (stored_none a o W M). now apply field_prop. Qed.
  Lemma r_optional_none {A} raw (R : pvalue -> A -> Prop) : misses raw a = true -> field_at raw (ao_fields a) = None -> optional o raw R None.
  Proof. intros Hm Hf. unfold optional. now rewrite r_no_value. Qed.
  Lemma r_defaulted_none {A} raw (R : pvalue -> A -> Prop) d : misses raw a = true -> field_at raw (ao_fields a) = None -> defaulted o raw R d d.
  Proof. intros Hm Hf. unfold defaulted. now rewrite r_no_value. Qed.
End ReadValues.

Section ReadRefs.
  Context (cell : cellid) (a : aobject) (o : object).
  Context (W : ao_wf a) (O : object_is cell (describe a) o).
  Lemma r_references raw l : misses raw a = true -> field_at raw (ao_fields a) = frefs l -> references o raw l.
  Proof. intros Hm Hf. apply (f_references cell a o W O). now apply field_prop. Qed.
  Lemma r_children raw l : misses raw a = true -> field_at raw (ao_fields a) = frefs l -> children o raw l.
  Proof. intros Hm Hf. apply (f_children cell a o W O). now apply field_prop. Qed.
  Lemma r_no_children raw : misses raw a = true -> field_at raw (ao_fields a) = None -> children o raw [].
  Proof. intros Hm Hf. unfold children. rewrite (r_no_value a o W (described_props cell a o O)); auto. Qed.
  Lemma r_reference raw x : misses raw a = true -> field_at raw (ao_fields a) = fref x -> reference o raw x.
  Proof. intros Hm Hf. apply (f_reference_opt cell a o W O). now apply field_prop. Qed.
  Lemma r_no_reference raw : misses raw a = true -> field_at raw (ao_fields a) = None -> reference o raw None.
  Proof. intros Hm Hf. apply (f_no_reference cell a o W O). now apply field_prop. Qed.
  Lemma r_spaces raw l : misses raw a = true -> field_at raw (ao_fields a) = fspaces l ->
    Forall (fun c => exguid_eqb (snd c) (snd cell) = false) (cells_of (ao_props a)) -> spaces o raw l.
  Proof. intros Hm Hf F. apply (f_spaces cell a o W O); [|exact F]. now apply field_prop. Qed.
End ReadRefs.

(** ** Note tags *)
Definition status_code (s : action_item_status) : N :=
  match s with ActionItemStatus a b c => (if a then 1 else 0) + (if b then 2 else 0) + (if c then 4 else 0) end.
Lemma status_coded s : status_code s < 2 ^ 16 /\ status_bits (VU16 (status_code s)) s.
Proof.
  destruct s as [a b c]. split; [destruct a, b, c; reflexivity|]. exists (status_code (ActionItemStatus a b c)). split; [reflexivity|].
  destruct a, b, c; reflexivity.
Qed.
Definition tag_values (t : tag_data) : list (N * sval) :=
  (pid_id 0x1400346E, SU32 (tg_created_at t)) :: (pid_id 0x10003470, SU16 (status_code (tg_item_status t))) ::
  match tg_completed_at t with Some n => [(pid_id 0x1400346F, SU32 n)] | None => [] end.
Definition tag_set (k : N) (t : tag_data) : list (N * sval) :=
  match tg_definition t with Some _ => [(pid_id 0x24001C20, SObjectIds k); (pid_id 0x20003488, SObjectId)] | None => [] end ++ tag_values t.
Definition defs (l : list tag_data) : list exguid := flat_map (fun t => match tg_definition t with Some x => [x] | None => [] end) l.
Fixpoint tag_sets (k : N) (l : list tag_data) : list (list (N * sval)) :=
  match l with
  | [] => []
  | t :: r => tag_set k t :: tag_sets (match tg_definition t with Some _ => k + 1 | None => k end) r
  end.
Definition ftags (l : list tag_data) : option (N * aprop) := Some (0x40003489, AProp (SValues 0 (tag_sets 0 l)) (defs l) []).
Definition tag_fits (t : tag_data) : Prop :=
  tg_created_at t < 2 ^ 32 /\ (forall n, tg_completed_at t = Some n -> n < 2 ^ 32) /\ (forall x, tg_definition t = Some x -> id_fits x).

Lemma tag_set_regular k t own : regular_set own (tag_set k t).
Proof.
  unfold tag_set, tag_values. destruct (tg_definition t), (tg_completed_at t); (split; [|cbn; tauto]); cbn; repeat (apply NoDup_cons; [cbn; intuition discriminate|]); apply NoDup_nil.
Qed.
Lemma tag_sets_regular own l : forall k, regular own (SValues 0 (tag_sets k l)).
Proof.
  induction l as [|t l IH]; intro k; [exact I|]. cbn [tag_sets regular all fold_right]. split; [apply tag_set_regular|]. apply IH.
Qed.
Lemma tag_set_val k t : k < 2 ^ 32 -> tag_fits t -> w_props_ok w_val_ok (tag_set k t) = true /\ set_bytes (tag_set k t) /\
  N.of_nat (length (w_props w_val (tag_set k t))) <= 100.
Proof.
  intros K (F1 & F2 & _). destruct (status_coded (tg_item_status t)) as (F3 & _).
  assert (L : Forall (fun p => N.of_nat (length (w_val (snd p))) <= 4) (tag_set k t) /\ (length (tag_set k t) <= 5)%nat).
  { unfold tag_set, tag_values. destruct (tg_definition t), (tg_completed_at t); (split; [|cbn; lia]); cbn [app]; repeat (apply Forall_cons; [cbn [snd w_val]; rewrite ?le_bytes_length; cbn; lia|]); apply Forall_nil. }
  refine (conj _ (conj _ _)).
  - unfold w_props_ok. apply andb_true_iff. split; [apply andb_true_iff; split; [lia|]|]; unfold tag_set, tag_values;
      destruct (tg_definition t), (tg_completed_at t) as [n|]; cbn [app forallb fst snd w_val_ok]; repeat (apply andb_true_iff; split); try reflexivity; apply N.ltb_lt; auto.
  - unfold tag_set, tag_values. destruct (tg_definition t), (tg_completed_at t); cbn; tauto.
  - destruct L as (L1 & L2). apply w_props_length in L1. lia.
Qed.
Lemma tag_sets_val l : Forall tag_fits l -> forall k, k + N.of_nat (length l) < 2 ^ 32 ->
  forallb (fun s => w_props_ok w_val_ok s) (tag_sets k l) = true /\ val_bytes (SValues 0 (tag_sets k l)) /\
  N.of_nat (length (w_val (SValues 0 (tag_sets k l)))) <= 8 + 100 * N.of_nat (length l) /\ length (tag_sets k l) = length l.
Proof.
  induction 1 as [|t l T _ IH]; intros k K.
  - cbn [tag_sets forallb val_bytes w_val]. rewrite !app_length, !le_bytes_length. cbn; repeat split; lia.
  - cbn [length] in K. cbn [tag_sets]. set (k' := match tg_definition t with Some _ => k + 1 | None => k end).
    assert (K' : k' + N.of_nat (length l) < 2 ^ 32) by (unfold k'; destruct (tg_definition t); lia).
    destruct (tag_set_val k t ltac:(lia) T) as (A1 & A2 & A3). destruct (IH k' K') as (B1 & B2 & B3 & B4).
    refine (conj _ (conj _ (conj _ _))).
    + cbn [forallb]. now rewrite A1, B1.
    + split; [|exact B2]. clear - A2. induction (tag_set k t); [exact I|]. destruct A2. split; auto.
    + cbn [w_val] in *. rewrite !app_length, !le_bytes_length in *. cbn [length]. lia.
    + cbn [length]. now rewrite B4.
Qed.
Lemma defs_length l : (length (defs l) <= length l)%nat.
Proof. induction l as [|t l IH]; cbn; [lia|]. rewrite app_length. destruct (tg_definition t); cbn; unfold defs in IH; lia. Qed.
Lemma lg_tags l : Forall tag_fits l -> N.of_nat (length l) < 2 ^ 24 -> last_good (length l) (ftags l).
Proof.
  intros F L. destruct (tag_sets_val l F 0 ltac:(lia)) as (A1 & A2 & A3 & A4). pose proof (defs_length l) as D.
  refine (conj _ (conj A2 (conj _ (conj (conj _ _) (conj _ (conj _ _)))))).
  - cbn [ap_val w_val_ok]. rewrite A4, A1. rewrite (proj2 (N.ltb_lt _ _)) by lia. reflexivity.
  - cbn [ap_val]. lia.
  - apply tag_sets_regular.
  - apply tag_sets_regular.
  - cbn [ap_refs]. clear - F. unfold defs. induction F as [|t l (_ & _ & T) _ IH]; [constructor|]. cbn [flat_map]. apply Forall_app. split; [|exact IH].
    destruct (tg_definition t); [|constructor]. constructor; [now apply T|constructor].
  - constructor.
  - cbn. lia.
Qed.
