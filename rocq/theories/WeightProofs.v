(** The size of a store. *)
From Coq Require Import Lia ZifyBool ZifyNat ZifyN Permutation.
From Verif Require Import Base BaseProofs Codec SpecCodec CodecProofs Package PackageProofs SpecPackage PackageRT PackageFacts
  PropSet PropSetProofs Store SpecStore StoreProofs Notebook SpecWeight.
Local Open Scope nat_scope.

(** ** Property sets *)
Lemma total_le {A} (f g : A -> nat) l : (forall x, In x l -> f x <= g x) -> total f l <= total g l.
Proof. unfold total. induction l as [|a l IH]; intro H; cbn; [lia|]. pose proof (H a (or_introl eq_refl)). assert (forall x, In x l -> f x <= g x) by (intros; apply H; now right). specialize (IH H1). lia. Qed.
Lemma total_in {A} (f : A -> nat) x l : In x l -> f x <= total f l.
Proof. unfold total. induction l as [|a l IH]; intros []; cbn; [subst; lia|]. specialize (IH H). lia. Qed.

Lemma sized_reps {A} (m : A -> nat) (p : parser A) n : sized m 0 p -> forall f, sized (total m) 0 (rep_fuel p f n).
Proof.
  intros P f. revert n. induction f as [|f IH]; intros n bs x rest; cbn [rep_fuel]; destruct (n =? 0)%N;
    try (intro H; discriminate H); try (intro H; eapply (sized_pret (total m) 0); [|exact H]; cbn; lia).
  unfold pbind. destruct (p bs) as [[a r]| | |] eqn:E; try (intro H; discriminate H).
  destruct (rep_fuel p f (n - 1) r) as [[xs r']| | |] eqn:E2; try (intro H; discriminate H).
  apply P in E. apply IH in E2. unfold pret. intro H. assert (x = a :: xs) as -> by congruence.
  assert (rest = r') as -> by congruence. unfold total in *. cbn [fold_right]. lia.
Qed.
Lemma sized_reps_ext {A} (m m' : A -> nat) c p : (forall x, m' x <= m x) -> sized m c p -> sized m' c p.
Proof. intros L H bs x rest E. apply H in E. specialize (L x). lia. Qed.

Lemma sized_pvalue ps f id : sized (fun s => S (set_weight s)) 0 ps -> sized value_weight 0 (pvalue_parse ps f id).
Proof.
  intro P. assert (V : sized value_weight 0 pvec_parse).
  { unfold pvec_parse. sk. eapply sized_weaken with (c := 0 + 1); [lia|]. eapply (sized_bind (@length N)); [apply sized_read|]. intro. apply sized_pret. cbn. lia. }
  assert (W : sized value_weight 0 (size <- get_u32 ;; pid <- pid_parse ;; sets <- rep_fuel ps f size ;; pret (VPropertyValues pid sets))).
  { sk. sk. eapply sized_weaken with (c := 0 + 2); [lia|]. eapply sized_bind; [apply (sized_reps _ _ _ P)|]. intro l. apply sized_pret.
    change (value_weight (VPropertyValues a0 l)) with (total (fun s => S (set_weight s)) l). lia. }
  assert (X : sized value_weight 0 (s <- ps ;; pret (VPropertySet s))).
  { eapply sized_weaken with (c := 0 + 0); [lia|]. eapply sized_bind; [exact P|]. intro s. apply sized_pret. change (value_weight (VPropertySet s)) with (set_weight s). lia. }
  unfold pvalue_parse. generalize (pid_type id) as n. intros [|p]; [apply sized_pfail|].
  do 5 (try destruct p as [p|p|]);
    first [exact V|exact W|exact X|apply sized_pfail|apply sized_pret; cbn; lia|sk; apply sized_pret; cbn; lia].
Qed.
Lemma sized_pvalues pv idx ids m : (forall id, sized value_weight 0 (pv id)) -> sized set_weight (set_weight m + length ids) (pvalues_parse pv idx ids m).
Proof.
  intro P. revert idx m. induction ids as [|id ids IH]; intros idx m; cbn [pvalues_parse length]; [apply sized_pret; lia|].
  eapply sized_weaken with (c := 0 + (set_weight m + S (length ids))); [lia|]. eapply sized_bind; [apply P|]. intro v.
  eapply sized_weaken; [|apply IH]. unfold set_weight.
  pose proof (ainsert_total N.eqb (fun p => S (value_weight (snd (snd p)))) (pid_id id) (idx, v) m) as H. cbn [snd] in H. lia.
Qed.
Lemma sized_propset f : sized (fun s => S (set_weight s)) 0 (propset_fuel f).
Proof.
  induction f as [|f IH]; cbn [propset_fuel]; [intros bs x rest H; discriminate H|]. sk.
  eapply sized_weaken with (c := 0 + 1); [lia|]. eapply (sized_bind (@length N)); [apply sized_rep, good_pid|]. intro ids.
  intros bs x rest H. apply sized_pvalues in H; [cbn in H; lia|]. intro id. now apply sized_pvalue.
Qed.
Lemma sized_oprops : sized (fun p => S (set_weight (op_props p)) + (length (op_object_ids p) + length (op_space_ids p) + length (op_context_ids p))) 0 oprops_parse.
Proof.
  unfold oprops_parse. sk. eapply sized_weaken with (c := 0 + 1); [lia|]. eapply (sized_bind (@length _)); [apply sized_rep, good_compactid|]. intro oids.
  eapply sized_weaken with (c := 0 + (length oids + 1)); [lia|]. eapply (sized_bind (fun sc => length (fst sc) + length (snd sc))).
  - destruct (sh_osid_absent a); [apply sized_pret; cbn; lia|]. sk. eapply sized_weaken with (c := 0 + 1); [lia|].
    eapply (sized_bind (@length _)); [apply sized_rep, good_compactid|]. intro sids. eapply sized_weaken with (c := 0 + (length sids + 1)); [lia|].
    eapply (sized_bind (@length compactid)).
    + destruct (sh_extended a0); [|apply sized_pret; cbn; lia]. sk. eapply sized_weaken; [|apply sized_rep, good_compactid]. lia.
    + intro cids. intros bs x rest H. assert (x = (sids, cids)) as -> by (unfold pret in H; congruence). assert (rest = bs) as -> by (unfold pret in H; congruence). cbn [fst snd]. lia.
  - intros [sids cids]. cbn [fst snd]. eapply sized_weaken with (c := 0 + (length sids + length cids + (length oids + 1))); [lia|].
    eapply (sized_bind (fun s => S (set_weight s))); [intros bs x rest H; now apply sized_propset in H|]. intro s. apply sized_pret. cbn [op_props op_object_ids op_space_ids op_context_ids]. lia.
Qed.

Lemma oprops_light bs p rest : oprops_parse bs = Ok (p, rest) ->
  S (set_weight (op_props p) + length (op_object_ids p) + length (op_space_ids p) + length (op_context_ids p)) + length rest <= length bs.
Proof. intro H. apply sized_oprops in H. lia. Qed.

(** ** Tables *)
Lemma mapping_total {T} (l : list (compactid * T)) : forall i m,
  total (fun e => length (snd e)) (mapping_entries i l m) <= total (fun e => length (snd e)) m + length l.
Proof.
  induction l as [|[cid id] l IH]; intros i m; cbn [mapping_entries length]; [lia|]. etransitivity; [apply IH|].
  enough (total (fun e => length (snd e)) (ainsert compactid_eqb cid ((match alookup compactid_eqb cid m with Some v => v | None => [] end) ++ [(i, id)]) m)
          <= S (total (fun e => length (snd e)) m)) by lia.
  unfold ainsert. rewrite total_app. unfold total at 2. cbn [fold_right snd]. rewrite app_length. cbn [length].
  enough (total (fun e : compactid * list (N * T) => length (snd e)) (filter (fun e => negb (compactid_eqb cid (fst e))) m) + length (match alookup compactid_eqb cid m with Some v => v | None => [] end) <= total (fun e => length (snd e)) m) by lia.
  induction m as [|[k v] m IHm]; cbn [alookup filter fst]; [cbn; lia|]. destruct (compactid_eqb cid k); cbn [negb].
  - enough (total (fun e : compactid * list (N * T) => length (snd e)) (filter (fun e => negb (compactid_eqb cid (fst e))) m) <= total (fun e => length (snd e)) m) by (unfold total in *; cbn [fold_right snd]; lia).
    clear. unfold total. induction m as [|x m IH]; cbn; [lia|]. destruct (negb _); cbn; lia.
  - unfold total in *. cbn [fold_right snd]. lia.
Qed.

(** ** Objects *)
Definition weight (o : object) : nat := object_weight o + object_ids o.
Lemma filter_split {A} (f : A -> bool) l : length (filter f l) + length (filter (fun x => negb (f x)) l) = length l.
Proof. induction l as [|a l IH]; cbn; [reflexivity|]. destruct (f a); cbn; lia. Qed.
Lemma object_light id ctx sp data pk o : object_parse id ctx sp data pk = Ok o ->
  exists od, alookup gkey_eqb (id, 1%N) data = Some od /\ weight o <= S (odata_size od) /\
    forall b, ob_file o = Some b -> exists k, alookup exguid_eqb k (pk_blobs pk) = Some b.
Proof.
  unfold object_parse. unfold find_object at 2. change (partition_object_data) with 1%N.
  destruct (find_object id partition_metadata data) as [mo|]; cbn [ok_or rbind]; [|discriminate].
  destruct (alookup gkey_eqb (id, 1%N) data) as [od|]; cbn [ok_or rbind]; [|discriminate].
  destruct mo as [? ? md| |]; cbn [rbind]; try discriminate.
  destruct (run jcid_parse md) as [jc| | |]; cbn [rbind]; try discriminate.
  destruct od as [gr ce d| |]; cbn [rbind]; try discriminate.
  unfold run at 1. destruct (oprops_parse d) as [[ps r]| | |] eqn:E; cbn [rbind]; try discriminate. apply sized_oprops in E.
  destruct (find_blob_id id data) as [blob| | |]; cbn [rbind]; try discriminate.
  destruct (opt_map_res _ blob) as [file| | |] eqn:EB; cbn [rbind]; try discriminate.
  destruct (_ <? _)%N; [discriminate|]. destruct (negb _); [discriminate|]. intro H. exists (DataObject gr ce d). split; [reflexivity|].
  injection H as <-. split.
  - unfold weight, object_weight, object_ids. cbn [ob_props ob_mapping]. unfold mapping_from_entries. cbn [mt_objects mt_spaces odata_size].
    pose proof (mapping_total (combine (op_object_ids ps) gr ++ combine (op_context_ids ps) (map fst (filter (fun c => exguid_eqb (snd c) sp) ce))) 0 []) as M1.
    pose proof (mapping_total (combine (op_space_ids ps) (filter (fun c => negb (exguid_eqb (snd c) sp)) ce)) 0 []) as M2.
    rewrite app_length, !combine_length, map_length in M1. rewrite combine_length in M2. unfold total in M1 at 2. unfold total in M2 at 2. cbn [fold_right] in M1, M2.
    pose proof (filter_split (fun c : cellid => exguid_eqb (snd c) sp) ce) as FS. unfold cellid in *. lia.
  - cbn [ob_file]. intros b ->. destruct blob as [k|]; cbn [opt_map_res] in EB; [|discriminate EB]. unfold find_blob in EB. exists k.
    destruct (alookup exguid_eqb k (pk_blobs pk)); cbn [ok_or rbind] in EB; congruence.
Qed.

(** ** Groups: what has not been read yet pays for what is read *)
Definition data_of (g : object_group) : group_data :=
  aextend gkey_eqb [] (map (fun '(d, o) => ((decl_object_id d, decl_partition d), o)) (combine (og_decls g) (og_objects g))).
Definition due (objs : objects) (e : (exguid * N) * odata) : nat :=
  if (snd (fst e) =? 1)%N && negb (amember exguid_eqb (fst (fst e)) objs) then S (odata_size (snd e)) else 0.
Definition dues (pk : package) (objs : objects) : nat := total (fun e => total (due objs) (data_of (snd e))) (pk_groups pk).
Definition heavy (objs : objects) : nat := total (fun e => weight (snd e)) objs.

Lemma member_ins x id (o : object) objs : amember exguid_eqb x (ainsert exguid_eqb id o objs) = exguid_eqb id x || amember exguid_eqb x objs.
Proof. unfold amember. rewrite (alookup_insert exguid_eqb exguid_eqb_eq). destruct (exguid_eqb id x); reflexivity. Qed.
Lemma due_ins id (o : object) objs e : due (ainsert exguid_eqb id o objs) e <= due objs e.
Proof.
  unfold due. rewrite member_ins. destruct (snd (fst e) =? 1)%N; cbn [andb]; [|lia].
  destruct (exguid_eqb id (fst (fst e))), (amember exguid_eqb (fst (fst e)) objs); cbn [orb negb]; lia.
Qed.
Lemma lookup_in {K V} (eqb : K -> K -> bool) (OK : forall a b, eqb a b = true <-> a = b) k (m : amap K V) v : alookup eqb k m = Some v -> In (k, v) m.
Proof.
  induction m as [|[a b] m IH]; cbn; [discriminate|]. destruct (eqb k a) eqn:E; [|auto]. apply OK in E. intro H. injection H as ->. subst. now left.
Qed.
Lemma gkey_eqb_eq a b : gkey_eqb a b = true <-> a = b.
Proof.
  destruct a as [x i], b as [y j]. unfold gkey_eqb. cbn [fst snd]. rewrite andb_true_iff, exguid_eqb_eq, N.eqb_eq.
  split; [intros (-> & ->); reflexivity|intro H; injection H; auto].
Qed.
Lemma total_drop {A} (f g : A -> nat) x n l : (forall y, f y <= g y) -> In x l -> f x + n <= g x -> total f l + n <= total g l.
Proof.
  intros L I D. induction l as [|a l IH]; [destruct I|]. change (total f (a :: l)) with (f a + total f l). change (total g (a :: l)) with (g a + total g l).
  destruct I as [->|I].
  - pose proof (total_le f g l (fun y _ => L y)). lia.
  - specialize (IH I). specialize (L a). lia.
Qed.
Lemma dues_ins pk gid g id o objs od : In (gid, g) (pk_groups pk) -> amember exguid_eqb id objs = false ->
  alookup gkey_eqb (id, 1%N) (data_of g) = Some od -> dues pk (ainsert exguid_eqb id o objs) + S (odata_size od) <= dues pk objs.
Proof.
  intros I M E. unfold dues. apply (total_drop _ _ (gid, g)); [|exact I|].
  - intro y. apply total_le. intros. apply due_ins.
  - cbn [snd]. apply (lookup_in _ gkey_eqb_eq) in E. apply (total_drop _ _ _ _ _ (due_ins id o objs) E).
    unfold due. cbn [fst snd]. rewrite member_ins, M. rewrite (proj2 (exguid_eqb_eq id id) eq_refl). cbn. lia.
Qed.
Lemma heavy_ins id o objs : heavy (ainsert exguid_eqb id o objs) <= heavy objs + weight o.
Proof. unfold heavy. apply (ainsert_total exguid_eqb (fun e : exguid * object => weight (snd e)) id o objs). Qed.

(** File data of the objects comes from the package. *)
Definition filed (pk : package) (objs : objects) : Prop :=
  forall x o b, In (x, o) objs -> ob_file o = Some b -> exists k, In (k, b) (pk_blobs pk).
Lemma in_ainsert {K V} (eqb : K -> K -> bool) (k : K) (v : V) m x : In x (ainsert eqb k v m) -> In x m \/ x = (k, v).
Proof. unfold ainsert. intro H. apply in_app_iff in H as [H|[H|[]]]; [left|right; congruence]. now apply filter_In in H. Qed.

Lemma group_pays pk ctx sp gid g ids : In (gid, g) (pk_groups pk) -> forall objs objs', filed pk objs ->
  group_objects pk ctx sp g (data_of g) ids objs = Ok objs' -> filed pk objs' /\ heavy objs' + dues pk objs' <= heavy objs + dues pk objs.
Proof.
  intro I. induction ids as [|id ids IH]; intros objs objs' FL; cbn [group_objects]; [intro H; injection H as <-; split; [exact FL|lia]|].
  destruct (amember exguid_eqb id objs) eqn:M; [now apply IH|]. destruct (negb _); [discriminate|].
  destruct (object_parse id ctx sp (data_of g) pk) as [o| | |] eqn:E; cbn [rbind]; try discriminate.
  apply object_light in E as (od & L & W & B). intro H. apply IH in H.
  - destruct H as (H1 & H2). split; [exact H1|].
    pose proof (dues_ins pk gid g id o objs od I M L). pose proof (heavy_ins id o objs). lia.
  - intros x o' b Hx F. apply in_ainsert in Hx as [Hx|Hx]; [now apply (FL x o' b)|]. injection Hx as -> ->.
    destruct (B b F) as (k & Hk). exists k. now apply (lookup_in _ exguid_eqb_eq).
Qed.
Lemma groups_pay pk ctx sp gs : forall objs objs', filed pk objs -> parse_groups pk ctx sp gs objs = Ok objs' ->
  filed pk objs' /\ heavy objs' + dues pk objs' <= heavy objs + dues pk objs.
Proof.
  induction gs as [|g gs IH]; intros objs objs' FL; cbn [parse_groups]; [intro H; injection H as <-; split; [exact FL|lia]|].
  unfold parse_group. unfold find_object_group. destruct (alookup exguid_eqb g (pk_groups pk)) as [og|] eqn:E; cbn [ok_or rbind]; [|discriminate].
  apply (lookup_in _ exguid_eqb_eq) in E. cbv zeta. fold (data_of og).
  destruct (group_objects pk ctx sp og (data_of og) _ objs) as [o1| | |] eqn:G; cbn [rbind]; try discriminate.
  apply (group_pays _ _ _ _ _ _ E) in G as (F1 & G); [|exact FL]. intro H. apply IH in H as (F2 & H); [|exact F1]. split; [exact F2|lia].
Qed.
Lemma walk_pays fuel ctx sp si pk : forall rid objs rts objs' rts', filed pk objs ->
  revision_walk fuel ctx sp si pk [] rid objs rts = Ok (objs', rts') -> filed pk objs' /\ heavy objs' + dues pk objs' <= heavy objs + dues pk objs.
Proof.
  induction fuel as [|f IH]; intros [id|] objs rts objs' rts' FL; cbn [revision_walk]; try discriminate;
    try (intro H; injection H as <- <-; split; [exact FL|lia]).
  unfold revision_parse. destruct (find_revision_manifest pk id) as [rm|]; cbn [ok_or rbind]; [|discriminate].
  destruct (opt_map_res _ _) as [base| | |]; cbn [rbind]; try discriminate. cbn [alookup].
  destruct (map_res _ (rm_roots rm)) as [new| | |]; cbn [rbind]; try discriminate. cbv zeta.
  destruct (parse_groups pk ctx sp (rm_groups rm) objs) as [o1| | |] eqn:G; cbn [rbind]; try discriminate.
  apply groups_pay in G as (F1 & G); [|exact FL]. intro H. apply IH in H as (F2 & H); [|exact F1]. split; [exact F2|lia].
Qed.

(** ** Spaces *)
Lemma data_total (l : list ((exguid * N) * odata)) : forall m, total (fun e => S (odata_size (snd e))) (aextend gkey_eqb m l) <=
  total (fun e => S (odata_size (snd e))) m + total (fun e => S (odata_size (snd e))) l.
Proof.
  unfold aextend. induction l as [|[k o] l IH]; intro m; cbn [fold_left]; [cbn; lia|]. etransitivity; [apply IH|].
  pose proof (ainsert_total gkey_eqb (fun e : (exguid * N) * odata => S (odata_size (snd e))) k o m) as H. cbn [fst snd] in *.
  change (total (fun e : (exguid * N) * odata => S (odata_size (snd e))) ((k, o) :: l)) with (S (odata_size o) + total (fun e : (exguid * N) * odata => S (odata_size (snd e))) l). lia.
Qed.
Lemma group_due g objs : total (due objs) (data_of g) <= group_size g.
Proof.
  etransitivity; [apply (total_le _ (fun e => S (odata_size (snd e)))); intros e _; unfold due; destruct (_ && _); lia|].
  unfold data_of. etransitivity; [apply data_total|]. unfold group_size.
  enough (total (fun e : (exguid * N) * odata => S (odata_size (snd e))) (map (fun '(d, o) => (decl_object_id d, decl_partition d, o)) (combine (og_decls g) (og_objects g)))
    <= total (fun d => S (odata_size d)) (og_objects g)) by (unfold total at 1; cbn [fold_right]; lia).
  generalize (og_decls g) as ds. induction (og_objects g) as [|o os IH]; intros [|d ds]; cbn [combine map]; try (cbn; lia).
  specialize (IH ds). unfold total in *. cbn [fold_right snd]. lia.
Qed.
Lemma space_light h fuel m si pk c s : space_parse h fuel m si pk [] = Ok (c, s) ->
  filed pk (sp_objects s) /\ space_weight s <= total (fun e => S (group_size (snd e))) (pk_groups pk).
Proof.
  unfold space_parse. cbv zeta. destruct (or_else _ _) as [id|].
  - destruct (revision_walk fuel _ _ si pk [] (Some id) [] []) as [[objs rts]| | |] eqn:E; cbn [rbind]; try discriminate.
    intro H. injection H as _ <-. cbn [sp_objects]. apply walk_pays in E as (F & E); [|intros ? ? ? []]. split; [exact F|].
    unfold space_weight. cbn [sp_objects]. change (total _ objs) with (heavy objs).
    assert (D : dues pk [] <= total (fun e => S (group_size (snd e))) (pk_groups pk)).
    { apply total_le. intros e _. pose proof (group_due (snd e) []). lia. }
    change (heavy []) with 0 in E. lia.
  - destruct (find_cell_revision_id pk (cm_id m)) as [x|]; [|discriminate]. destruct (exguid_is_nil x); [|discriminate].
    intro H. injection H as _ <-. split; [intros ? ? ? []|]. cbn. lia.
Qed.
Definition light (pk : package) (s : space) : Prop :=
  filed pk (sp_objects s) /\ space_weight s <= total (fun e => S (group_size (snd e))) (pk_groups pk).
Lemma object_space_light h fuel cell si pk c s : parse_object_space h fuel cell si pk [] = Ok (c, s) -> light pk s.
Proof.
  unfold parse_object_space. destruct (alookup _ _ _) as [m|]; cbn [ok_or rbind]; [|discriminate]. apply space_light.
Qed.
Lemma spaces_light h fuel si pk done ms : forall sps sps', (forall c s, In (c, s) sps -> light pk s) -> parse_spaces h fuel si pk [] done ms sps = Ok sps' ->
  (forall c s, In (c, s) sps' -> light pk s) /\ length sps' <= length sps + length ms.
Proof.
  induction ms as [|m ms IH]; intros sps sps' L; cbn [parse_spaces length]; [intro H; injection H as <-; split; [exact L|lia]|].
  destruct (exguid_is_nil _); [intro H; apply IH in H as (H1 & H2); [split; [exact H1|lia]|exact L]|].
  destruct (existsb _ _); [intro H; apply IH in H as (H1 & H2); [split; [exact H1|lia]|exact L]|].
  destruct (parse_object_space _ _ _ _ _ _) as [[id s]| | |] eqn:E; cbn [rbind]; try discriminate. apply object_space_light in E.
  intro H. apply IH in H as (H1 & H2).
  - split; [exact H1|]. pose proof (ainsert_length cellid_eqb id s sps). lia.
  - intros c s' I. apply in_ainsert in I as [I|I]; [now apply (L c)|]. now injection I as _ ->.
Qed.
Lemma store_light h fuel pg st : parse_store h fuel pg = Ok st ->
  (forall s, space_of st s -> light (pg_package pg) s) /\ length (st_spaces st) <= total (fun e => S (index_size (snd e))) (pk_indexes (pg_package pg)).
Proof.
  unfold parse_store. cbv zeta. destruct (or_else _ _) as [si|] eqn:SI; cbn [ok_or rbind]; [|discriminate].
  destruct (find_storage_manifest _ _) as [sm|]; cbn [ok_or rbind]; [|discriminate].
  destruct (find_header_cell_id sm) as [hc| | |]; cbn [rbind]; try discriminate.
  destruct (find_cell_mapping_id si hc) as [hm|]; cbn [ok_or rbind]; [|discriminate].
  destruct (find_objects _ _ _ _) as [gs| | |]; cbn [rbind]; try discriminate.
  destruct (hd_error gs) as [hg|]; cbn [ok_or rbind]; [|discriminate].
  destruct (header_parse_store hg) as [hd| | |]; cbn [rbind]; try discriminate.
  destruct (find_data_root_cell_id sm) as [rc| | |]; cbn [rbind]; try discriminate.
  destruct (parse_object_space h fuel rc si (pg_package pg) []) as [[x root]| | |] eqn:R; cbn [rbind]; try discriminate.
  destruct (parse_spaces _ _ _ _ _ _ _ _) as [sps| | |] eqn:P; cbn [rbind]; try discriminate. intro H. injection H as <-.
  apply object_space_light in R. apply spaces_light in P as (P1 & P2); [|intros ? ? []]. split.
  - intros s [->|(c & I)]; [exact R|]. now apply (P1 c).
  - cbn [st_spaces length] in *. rewrite <- (Permutation_length (o_cells_perm h _)), map_length in P2.
    assert (I : exists k, In (k, si) (pk_indexes (pg_package pg))).
    { unfold or_else, find_storage_index_by_id, find_storage_index in SI. destruct (alookup _ _ _) as [si'|] eqn:A.
      - injection SI as ->. eexists. exact (lookup_in _ exguid_eqb_eq _ _ _ A).
      - assert (J : In si (o_indexes h (map snd (pk_indexes (pg_package pg))))) by (destruct (o_indexes h _); [discriminate SI|injection SI as ->; now left]).
        apply (Permutation_in _ (Permutation_sym (o_indexes_perm h _))) in J. apply in_map_iff in J as ([k y] & Q & J). exists k. cbn in Q. now subst. }
    destruct I as (k & I). apply (total_in (fun e => S (index_size (snd e)))) in I. cbn [snd] in I. unfold index_size in I at 1. lia.
Qed.

Lemma open_light h fuel bs st : open_store h fuel bs = Ok st -> forall s, space_of st s ->
  length (st_spaces st) + space_weight s <= length bs /\
  forall x o b, In (x, o) (sp_objects s) -> ob_file o = Some b -> length (st_spaces st) + space_weight s + length b <= length bs.
Proof.
  unfold open_store, run. destruct (packaging_parse bs) as [[pg r]| | |] eqn:P; cbn [rbind]; try discriminate. apply sized_packaging in P.
  intros H s I. apply store_light in H as (H1 & H2). destruct (H1 s I) as (F & W). unfold package_size in P. split; [lia|].
  intros x o b J E. destruct (F x o b J E) as (k & K). apply (total_in (fun e => S (length (snd e)))) in K. cbn [snd] in K. lia.
Qed.

Lemma open_square h fuel bs st : open_store h fuel bs = Ok st ->
  4 * total (fun e => space_weight (snd e)) (st_spaces st) <= length bs * length bs.
Proof.
  intro E. pose proof (open_light h fuel bs st E) as H. set (n := length (st_spaces st)) in *. set (L := length bs) in *.
  assert (T : total (fun e => space_weight (snd e)) (st_spaces st) <= n * (L - n)).
  { assert (W : forall e, In e (st_spaces st) -> space_weight (snd e) <= L - n).
    { intros [c s] I. cbn [snd]. destruct (H s) as (W & _); [right; eauto|]. lia. }
    unfold n at 1. clear H E. clearbody n L. induction (st_spaces st) as [|a l IH]; [cbn; lia|].
    change (total (fun e => space_weight (snd e)) (a :: l)) with (space_weight (snd a) + total (fun e => space_weight (snd e)) l).
    pose proof (W a (or_introl eq_refl)). specialize (IH (fun x I => W x (or_intror I))). cbn [length]. rewrite Nat.mul_succ_l.
    lia. }
  assert (n <= L). { destruct (H (st_data_root st) (or_introl eq_refl)) as (W & _). lia. }
  clear H E. clearbody n L. assert (X : exists m, L = n + m) by (exists (L - n); lia). destruct X as (m & ->). replace (n + m - n) with m in T by lia.
  revert T. generalize (total (fun e => space_weight (snd e)) (st_spaces st)). clear. intros t T. pose proof (Z.square_nonneg (Z.of_nat n - Z.of_nat m)). nia.
Qed.
