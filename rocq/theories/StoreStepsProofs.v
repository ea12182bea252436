(** Proofs about [StoreSteps.v]. *)
From Coq Require Import Lia ZifyBool ZifyNat ZifyN Permutation.
From Verif Require Import Base BaseProofs Codec Package SpecPackage PackageFacts PropSet PropIds Store Notebook Steps StoreSteps StepsProofs SpecWeight WeightProofs DeepProofs2 StoreProofs.
Local Open Scope nat_scope.

(** ** Counting changes nothing *)
Lemma snd_bind {A B} (w : work A) r (f : A -> work B) g : snd w = r -> (forall a, snd (f a) = g a) -> snd (wbind w f) = rbind r g.
Proof.
  intros W F. unfold wbind. destruct w as [n [a| | |]]; cbn [snd] in W; subst r; cbn [rbind snd]; try reflexivity.
  rewrite <- (F a). now destruct (f a).
Qed.
Lemma snd_turns {B} n (k : work B) : snd (let# _ := turns n in k) = snd k.
Proof. unfold wbind, turns. now destruct k. Qed.
Lemma snd_find {A} (f : A -> bool) l : snd (find_w f l) = find f l.
Proof. induction l as [|x l IH]; cbn [find_w find]; [reflexivity|]. destruct (f x); [reflexivity|]. destruct (find_w f l). exact IH. Qed.
Lemma snd_map_res {A B} (f : A -> res B) l : snd (map_res_w f l) = map_res f l.
Proof.
  induction l as [|a l IH]; cbn [map_res_w map_res]; [reflexivity|]. apply snd_bind; [reflexivity|]. intro b. rewrite snd_turns.
  apply snd_bind; [exact IH|]. reflexivity.
Qed.
Lemma snd_run {A} (p : counted A) q d : same p q -> snd (run_w p d) = run q d.
Proof. intro S. unfold run_w, run. rewrite <- (S d). now destruct (p d). Qed.
Lemma snd_serial h si s : snd (find_revision_mapping_by_serial_w h si s) = Ok (find_revision_mapping_by_serial h si s).
Proof.
  unfold find_revision_mapping_by_serial_w, find_revision_mapping_by_serial. rewrite <- snd_find. now destruct (find_w _ _).
Qed.
Lemma snd_known {A B} (w : work A) a (f : A -> work B) r : snd w = Ok a -> snd (f a) = r -> snd (wbind w f) = r.
Proof. intros W F. destruct w as [n x]. cbn [snd] in W. subst x. unfold wbind. rewrite <- F. now destruct (f a). Qed.
Lemma snd_or_else {A} (o : option A) w d : snd w = Ok d -> snd (or_else_w o w) = Ok (or_else o d).
Proof. intro W. destruct o; [reflexivity|exact W]. Qed.
Lemma snd_objects h pk cell si : snd (find_objects_w h pk cell si) = find_objects h pk cell si.
Proof.
  unfold find_objects_w, find_objects. eapply snd_known.
  - apply snd_or_else. instantiate (1 := match find (fun m => exguid_eqb (cm_id m) cell) (o_cells h (map snd (si_cells si))) with
      | Some m => find_revision_mapping_by_serial h si (cm_serial m) | None => None end). rewrite <- snd_find.
    destruct (find_w _ _) as [n o]. rewrite snd_turns. cbn [snd]. destruct o as [m|]; [apply snd_serial|reflexivity].
  - apply snd_bind; [reflexivity|]. intro rev. apply snd_bind; [reflexivity|]. intro rm. apply snd_map_res.
Qed.
Lemma snd_object id ctx sp g pk : snd (object_parse_w id ctx sp g pk) = object_parse id ctx sp g pk.
Proof.
  unfold object_parse_w, object_parse. do 3 (apply snd_bind; [reflexivity|]; intro).
  apply snd_bind; [apply snd_run, same_call|]. intro jc. apply snd_bind; [reflexivity|]. intros [[data refs] cells].
  apply snd_bind; [apply snd_run, same_oprops|]. intro ps. do 2 (apply snd_bind; [reflexivity|]; intro).
  rewrite snd_turns. cbv zeta. rewrite snd_turns. destruct (_ <? _)%N; [reflexivity|]. destruct (negb _); [reflexivity|]. rewrite snd_turns. reflexivity.
Qed.
Lemma snd_group pk ctx sp g data ids : forall objs, snd (group_objects_w pk ctx sp g data ids objs) = group_objects pk ctx sp g data ids objs.
Proof.
  induction ids as [|id ids IH]; intro objs; cbn [group_objects_w group_objects]; [reflexivity|]. rewrite snd_turns.
  destruct (amember _ _ _); [apply IH|]. destruct (negb _); [reflexivity|]. apply snd_bind; [apply snd_object|]. intro. apply IH.
Qed.
Lemma snd_parse_group pk ctx gid sp objs : snd (parse_group_w pk ctx gid sp objs) = parse_group pk ctx gid sp objs.
Proof. unfold parse_group_w, parse_group. apply snd_bind; [reflexivity|]. intro g. rewrite snd_turns. cbv zeta. rewrite snd_turns. apply snd_group. Qed.
Lemma snd_groups pk ctx sp gs : forall objs, snd (parse_groups_w pk ctx sp gs objs) = parse_groups pk ctx sp gs objs.
Proof.
  induction gs as [|g gs IH]; intro objs; cbn [parse_groups_w parse_groups]; [reflexivity|]. apply snd_bind; [apply snd_parse_group|].
  intro o. rewrite snd_turns. apply IH.
Qed.
Lemma snd_revision id ctx sp si pk cache objs rts : snd (revision_parse_w id ctx sp si pk cache objs rts) = revision_parse id ctx sp si pk cache objs rts.
Proof.
  unfold revision_parse_w, revision_parse. do 2 (apply snd_bind; [reflexivity|]; intro). destruct (alookup _ _ cache) as [rev|]; [now rewrite snd_turns|].
  apply snd_bind; [apply snd_map_res|]. intro new. rewrite snd_turns. cbv zeta. apply snd_bind; [apply snd_groups|]. reflexivity.
Qed.
Lemma snd_walk fuel ctx sp si pk cache : forall id objs rts, snd (revision_walk_w fuel ctx sp si pk cache id objs rts) = revision_walk fuel ctx sp si pk cache id objs rts.
Proof.
  induction fuel as [|f IH]; intros [id|] objs rts; cbn [revision_walk_w revision_walk]; try reflexivity.
  apply snd_bind; [apply snd_revision|]. intros [[base o] r]. rewrite snd_turns. apply IH.
Qed.
Lemma snd_space h fuel m si pk cache : snd (space_parse_w h fuel m si pk cache) = space_parse h fuel m si pk cache.
Proof.
  unfold space_parse_w, space_parse. cbv zeta. eapply snd_known; [apply snd_or_else, snd_serial|]. destruct (or_else _ _) as [id|].
  - apply snd_bind; [apply snd_walk|]. intros [o r]. reflexivity.
  - destruct (find_cell_revision_id pk (cm_id m)) as [c|]; [|reflexivity]. destruct (exguid_is_nil c); reflexivity.
Qed.
Lemma snd_opt_map {A B} (f : A -> work B) g o : (forall a, snd (f a) = g a) -> snd (opt_map_w f o) = opt_map_res g o.
Proof. intro F. destruct o as [a|]; [|reflexivity]. cbn [opt_map_w opt_map_res]. now apply snd_bind. Qed.
Lemma snd_header_guid v : snd (header_guid_w v) = header_guid v.
Proof. destruct v; try reflexivity. cbn [header_guid_w header_guid]. apply snd_run, same_guid. Qed.
Lemma snd_header g : snd (header_parse_store_w g) = header_parse_store g.
Proof.
  unfold header_parse_store_w, header_parse_store. rewrite <- snd_find. destruct (find_w _ _) as [n p]. cbn [snd]. rewrite snd_turns.
  apply snd_bind; [reflexivity|]. intros [? o]. apply snd_bind; [reflexivity|]. intro d. apply snd_bind; [apply snd_run, same_oprops|]. intro ps.
  apply snd_bind; [apply snd_opt_map, snd_header_guid|]. intro. apply snd_bind; [reflexivity|]. intro.
  apply snd_bind; [apply snd_opt_map, snd_header_guid|]. intro. do 4 (apply snd_bind; [reflexivity|]; intro). reflexivity.
Qed.
Lemma snd_object_space h fuel c si pk cache : snd (parse_object_space_w h fuel c si pk cache) = parse_object_space h fuel c si pk cache.
Proof. unfold parse_object_space_w, parse_object_space. apply snd_bind; [reflexivity|]. intro. apply snd_space. Qed.
Lemma snd_spaces h fuel si pk cache done ms : forall acc, snd (parse_spaces_w h fuel si pk cache done ms acc) = parse_spaces h fuel si pk cache done ms acc.
Proof.
  induction ms as [|m ms IH]; intro acc; cbn [parse_spaces_w parse_spaces]; [reflexivity|]. rewrite snd_turns. destruct (exguid_is_nil _); [apply IH|].
  destruct (existsb _ _); [apply IH|]. apply snd_bind; [apply snd_object_space|]. intros [id s]. apply IH.
Qed.
Lemma snd_store h fuel pg : snd (parse_store_w h fuel pg) = parse_store h fuel pg.
Proof.
  unfold parse_store_w, parse_store. cbv zeta. do 4 (apply snd_bind; [reflexivity|]; intro). apply snd_bind; [apply snd_objects|]. intro.
  apply snd_bind; [reflexivity|]. intro. apply snd_bind; [apply snd_header|]. intro. apply snd_bind; [reflexivity|]. intro.
  apply snd_bind; [apply snd_object_space|]. intros [? ?]. apply snd_bind; [apply snd_spaces|]. reflexivity.
Qed.
Lemma open_same h fuel bs : snd (open_store_w h fuel bs) = open_store h fuel bs.
Proof. unfold open_store_w, open_store. apply snd_bind; [apply snd_run, same_packaging|]. intro. apply snd_store. Qed.

(** ** The cost *)
Lemma fst_bind {A B} (w : work A) (f : A -> work B) n m : fst w <= n -> (forall a, snd w = Ok a -> fst (f a) <= m) -> fst (wbind w f) <= n + m.
Proof.
  intros W F. unfold wbind. destruct w as [k [a| | |]]; cbn [fst] in *; try lia. specialize (F a eq_refl). destruct (f a). cbn [fst] in *. lia.
Qed.
Lemma fst_free {A B} (r : res A) (f : A -> work B) m : (forall a, r = Ok a -> fst (f a) <= m) -> fst (wbind (free r) f) <= m.
Proof. intro F. apply (fst_bind (free r) f 0 m); [cbn; lia|exact F]. Qed.
Lemma fst_turns {B} n (k : work B) m : fst k <= m -> fst (let# _ := turns n in k) <= n + m.
Proof. intro K. apply fst_bind; [cbn; lia|auto]. Qed.
Lemma fst_find {A} (f : A -> bool) l : fst (find_w f l) <= length l.
Proof. induction l as [|x l IH]; cbn [find_w length fst]; [lia|]. destruct (f x); cbn [fst]; [lia|]. destruct (find_w f l). cbn [fst] in *. lia. Qed.
Lemma fst_map_res {A B} (f : A -> res B) l : fst (map_res_w f l) <= length l.
Proof.
  induction l as [|a l IH]; cbn [map_res_w length]; [cbn; lia|]. apply fst_free. intros b _. apply (fst_turns 1).
  rewrite <- (Nat.add_0_r (length l)). apply fst_bind; [exact IH|]. intros. cbn. lia.
Qed.
Lemma fst_run {A} (p : counted A) c d : cheap one 0 c p -> fst (run_w p d) <= 4 * length d + c.
Proof. intro P. pose proof (cheap_bound c p P d). unfold run_w. destruct (p d). exact H. Qed.
Lemma fst_run_ok {A} (p : counted A) c d a : cheap one 0 c p -> snd (run_w p d) = Ok a -> fst (run_w p d) <= 4 * length d.
Proof. intros P. specialize (P d). unfold run_w. destruct (p d) as [n [[x rest]| | |]]; cbn [fst snd rbind]; try discriminate. unfold one in P. lia. Qed.
Lemma fst_serial h si s : fst (find_revision_mapping_by_serial_w h si s) <= length (si_revs si).
Proof.
  unfold find_revision_mapping_by_serial_w. pose proof (fst_find (fun m => (sn_guid (rv_serial m) =? sn_guid s)%N && (sn_serial (rv_serial m) =? sn_serial s)%N) (o_revs h (map snd (si_revs si)))) as F.
  rewrite <- (Permutation_length (o_revs_perm h _)), map_length in F. destruct (find_w _ _). exact F.
Qed.
Lemma fst_or_else {A} (o : option A) w n : fst w <= n -> fst (or_else_w o w) <= n.
Proof. intro W. destruct o; cbn; [lia|exact W]. Qed.

Lemma fst_object id ctx sp g pk : fst (object_parse_w id ctx sp g pk) <=
  match alookup gkey_eqb (id, 1%N) g with Some od => 4 * S (odata_size od) | None => 0 end.
Proof.
  unfold object_parse_w. apply fst_free. intros mo _. unfold find_object, partition_object_data. apply fst_free. intros od E.
  destruct (alookup gkey_eqb (id, 1%N) g) as [od'|]; cbn [ok_or] in E; [|discriminate E]. injection E as ->.
  apply fst_free. intros md _. replace (4 * S (odata_size od)) with (1 + (4 * odata_size od + 3)) by lia.
  apply fst_bind; [unfold run_w, call; cbn [fst]; lia|]. intros jc _. apply fst_free. intros [[d refs] cells] E.
  destruct od as [gr c d'| |]; try discriminate E. injection E as -> -> ->. cbn [odata_size].
  replace (4 * (length refs + length cells + length d) + 3) with (4 * length d + 1 + (4 * (length refs + length cells) + 2)) by lia.
  apply fst_bind; [apply fst_run, oprops_cheap; lia|]. intros ps _. apply fst_free. intros blob _. apply fst_free. intros file _.
  replace (4 * (length refs + length cells) + 2) with (length cells + (length cells + (length refs + length cells + (2 + length cells + 3 * length refs)))) by lia.
  apply fst_turns. cbv zeta. apply fst_turns. destruct (_ <? _)%N; [cbn; lia|]. destruct (negb _); [cbn; lia|]. 
  etransitivity; [apply fst_turns with (m := 0); cbn; lia|].
  rewrite app_length, !combine_length, map_length. pose proof (filter_split (fun c : cellid => exguid_eqb (snd c) sp) cells). unfold cellid in *. lia.
Qed.

(** What a run over some objects costs: [k], and four for each byte of an object that is
    read for the first time. *)
Definition spends (pk : package) (k : nat) (objs : objects) (w : work objects) : Prop :=
  match w with
  | (n, Ok objs') => n + 4 * dues pk objs' <= k + 4 * dues pk objs
  | (n, _) => n <= k + 4 * dues pk objs
  end.
Lemma spends_ret pk k objs : spends pk k objs (wret objs).
Proof. unfold spends, wret. lia. Qed.
Lemma spends_free pk k objs e : spends pk k objs (free (Err e)).
Proof. unfold spends, free. lia. Qed.
Lemma spends_turns pk k n objs w : spends pk k objs w -> spends pk (n + k) objs (let# _ := turns n in w).
Proof. unfold spends, wbind, turns. destruct w as [m [x| | |]]; lia. Qed.
Lemma spends_bind pk k m objs w f : spends pk k objs w -> (forall o, spends pk m o (f o)) -> spends pk (k + m) objs (wbind w f).
Proof.
  unfold spends at 1 3, wbind. intros W F. destruct w as [n [o| | |]]; try lia. specialize (F o). unfold spends in F.
  destruct (f o) as [n' [o'| | |]]; lia.
Qed.
Lemma spends_le pk k m objs w : k <= m -> spends pk k objs w -> spends pk m objs w.
Proof. unfold spends. destruct w as [n [o| | |]]; lia. Qed.

Lemma group_spends pk ctx sp gid g ids : In (gid, g) (pk_groups pk) -> forall objs,
  spends pk (length ids) objs (group_objects_w pk ctx sp g (data_of g) ids objs).
Proof.
  intro I. induction ids as [|id ids IH]; intro objs; cbn [group_objects_w length]; [apply spends_ret|]. apply (spends_turns pk (length ids) 1).
  destruct (amember exguid_eqb id objs) eqn:M; [apply IH|]. destruct (negb _); [apply spends_free|].
  pose proof (fst_object id ctx sp (data_of g) pk) as C. pose proof (snd_object id ctx sp (data_of g) pk) as Q.
  destruct (object_parse_w id ctx sp (data_of g) pk) as [n r] eqn:E. cbn [fst snd] in C, Q. unfold wbind. destruct r as [o| | |].
  - symmetry in Q. apply object_light in Q as (od & L & _). rewrite L in C. pose proof (dues_ins pk gid g id o objs od I M L).
    specialize (IH (ainsert exguid_eqb id o objs)). unfold spends in *. destruct (group_objects_w _ _ _ _ _ _ _) as [m [o'| | |]]; lia.
  - unfold spends. destruct (alookup gkey_eqb (id, 1%N) (data_of g)) as [od|] eqn:L; [|lia].
    pose proof (dues_ins pk gid g id (Object id 0 (OProps [] [] [] []) None (MappingTable [] [])) objs od I M L). lia.
  - unfold spends. destruct (alookup gkey_eqb (id, 1%N) (data_of g)) as [od|] eqn:L; [|lia].
    pose proof (dues_ins pk gid g id (Object id 0 (OProps [] [] [] []) None (MappingTable [] [])) objs od I M L). lia.
  - unfold spends. destruct (alookup gkey_eqb (id, 1%N) (data_of g)) as [od|] eqn:L; [|lia].
    pose proof (dues_ins pk gid g id (Object id 0 (OProps [] [] [] []) None (MappingTable [] [])) objs od I M L). lia.
Qed.
Section Bound.
  Variables (pk : package) (M : nat).
  Hypothesis HM : forall id g, In (id, g) (pk_groups pk) -> length (og_decls g) <= M.
  Lemma parse_group_spends ctx gid sp objs : spends pk (3 * M) objs (parse_group_w pk ctx gid sp objs).
  Proof.
    unfold parse_group_w, find_object_group. destruct (alookup exguid_eqb gid (pk_groups pk)) as [g|] eqn:E; [|unfold spends, wbind, free, ok_or; lia].
    apply (lookup_in _ PackageRT.exguid_eqb_eq) in E. specialize (HM _ _ E). cbn [ok_or].
    change (let# g := free (Ok g) in ?k g) with (let# _ := turns 0 in k g).
    apply (spends_le pk (0 + (length (og_decls g) + (length (combine (og_decls g) (og_objects g)) + length (map decl_object_id (og_decls g)))))).
    - rewrite combine_length, map_length. lia.
    - unfold wbind at 1, free. apply (spends_turns pk _ 0). apply spends_turns. cbv zeta. apply spends_turns. exact (group_spends pk ctx sp gid g _ E objs).
  Qed.
  Lemma groups_spends ctx sp gs : forall objs, spends pk (length gs * (1 + 3 * M)) objs (parse_groups_w pk ctx sp gs objs).
  Proof.
    induction gs as [|g gs IH]; intro objs; cbn [parse_groups_w length]; [apply spends_ret|].
    apply (spends_le pk (3 * M + (1 + length gs * (1 + 3 * M)))); [lia|]. apply spends_bind; [apply parse_group_spends|]. intro o. apply spends_turns, IH.
  Qed.
  Definition rcost (rm : revision_manifest) : nat := 2 * length (rm_roots rm) + length (rm_groups rm) * (1 + 3 * M).
  Lemma map_res_length {A B} (f : A -> res B) l : forall l', map_res f l = Ok l' -> length l' = length l.
  Proof.
    induction l as [|a l IH]; intros l' H; cbn [map_res] in H; [now injection H as <-|]. apply rbind_ok in H as (b & _ & H).
    apply rbind_ok in H as (bs & E & H). injection H as <-. cbn [length]. now rewrite (IH _ E).
  Qed.
  Lemma revision_spends id ctx sp si objs rts :
    match revision_parse_w id ctx sp si pk [] objs rts with
    | (n, Ok (_, objs', _)) => exists rm, alookup exguid_eqb id (pk_revisions pk) = Some rm /\ n + 4 * dues pk objs' <= rcost rm + 4 * dues pk objs
    | (n, _) => match alookup exguid_eqb id (pk_revisions pk) with Some rm => n <= rcost rm + 4 * dues pk objs | None => n = 0 end
    end.
  Proof.
    unfold revision_parse_w, find_revision_manifest. destruct (alookup exguid_eqb id (pk_revisions pk)) as [rm|]; cbn [ok_or]; [|reflexivity].
    unfold free at 1, wbind at 1. unfold free at 1, wbind at 1. destruct (opt_map_res _ _) as [base| | |]; try lia. cbn [alookup].
    pose proof (fst_map_res (fun d : exguid * exguid => let! r := role_parse (fst d) in Ok (r, snd d)) (rm_roots rm)) as C.
    pose proof (snd_map_res (fun d : exguid * exguid => let! r := role_parse (fst d) in Ok (r, snd d)) (rm_roots rm)) as Q.
    destruct (map_res_w _ (rm_roots rm)) as [n r]. cbn [fst snd] in C, Q. unfold wbind at 1. destruct r as [new| | |]; try (unfold rcost; lia).
    symmetry in Q. apply map_res_length in Q.
    pose proof (groups_spends ctx sp (rm_groups rm) objs) as G. cbv zeta. unfold turns, wbind. unfold spends in G.
    destruct (parse_groups_w pk ctx sp (rm_groups rm) objs) as [m [o| | |]]; unfold wret, rcost.
    - exists rm. split; [reflexivity|]. lia.
    - lia.
    - lia.
    - lia.
  Qed.

  (** The revisions not passed yet. *)
  Definition ahead (l : list exguid) : nat :=
    total (fun e => if in_dec exguid_dec (fst e) l then 0 else 1 + rcost (snd e)) (pk_revisions pk).
  Lemma ahead_pass l id rm : ~ In id l -> In (id, rm) (pk_revisions pk) -> ahead (l ++ [id]) + (1 + rcost rm) <= ahead l.
  Proof.
    intros N I. unfold ahead. apply (total_drop _ _ (id, rm)); [|exact I|].
    - intros [x y]. cbn [fst snd]. destruct (in_dec exguid_dec x (l ++ [id])) as [A|A], (in_dec exguid_dec x l) as [B|B]; try lia.
      destruct A. apply in_app_iff. now left.
    - cbn [fst snd]. destruct (in_dec exguid_dec id (l ++ [id])) as [A|A]; [|destruct A; apply in_app_iff; right; now left].
      destruct (in_dec exguid_dec id l); [contradiction|lia].
  Qed.
  Lemma steps_snoc ctx sp si l id o r id1 o1 r1 id2 o2 r2 : steps ctx sp si pk l id o r id1 o1 r1 ->
    revision_parse id1 ctx sp si pk [] o1 r1 = Ok (Some id2, o2, r2) -> steps ctx sp si pk (l ++ [id1]) id o r id2 o2 r2.
  Proof.
    intros T E. induction T as [id o r|id o r b o3 r3 l id' o' r' E' T IH]; cbn [app].
    - eapply st_one; [exact E|constructor].
    - eapply st_one; [exact E'|]. now apply IH.
  Qed.
  Lemma walk_spends ctx sp si id0 o0 r0 : (exists n, revision_walk n ctx sp si pk [] (Some id0) o0 r0 <> OutOfFuel) ->
    forall f l id o r, steps ctx sp si pk l id0 o0 r0 id o r -> fst (revision_walk_w f ctx sp si pk [] (Some id) o r) <= ahead l + 4 * dues pk o.
  Proof.
    intros (n & Ends). induction f as [|f IH]; intros l id o r T; cbn [revision_walk_w]; [cbn; lia|].
    assert (N : ~ In id l).
    { intro I. apply in_split in I as (a & b & ->). apply steps_app in T as (id1 & o1 & r1 & Ta & T).
      pose proof (steps_at _ _ _ _ _ _ _ _ _ _ _ _ T) as ->. apply Ends.
      assert (R : forall k, revision_walk k ctx sp si pk [] (Some id) o1 r1 = OutOfFuel) by (apply (round _ _ _ _ (id :: b) id o1 r1 o r); [discriminate|exact T]).
      destruct (Nat.le_gt_cases n (length a)) as [L|L].
      - apply (stuck_less _ _ _ _ n (length a)); [exact L|]. pose proof (steps_walk _ _ _ _ a _ _ _ _ _ _ 0 Ta) as Z. rewrite Nat.add_0_r in Z. exact Z.
      - replace n with (length a + (n - length a)) by lia. rewrite (steps_walk _ _ _ _ _ _ _ _ _ _ _ _ Ta). apply R. }
    pose proof (revision_spends id ctx sp si o r) as C. pose proof (snd_revision id ctx sp si pk [] o r) as Q.
    assert (A : forall rm, alookup exguid_eqb id (pk_revisions pk) = Some rm -> ahead (l ++ [id]) + (1 + rcost rm) <= ahead l).
    { intros rm E. apply ahead_pass; [exact N|]. now apply (lookup_in _ PackageRT.exguid_eqb_eq). }
    destruct (revision_parse_w id ctx sp si pk [] o r) as [k [[[base o1] r1]| | |]]; cbn [snd] in Q; unfold wbind at 1; cbn [fst].
    - destruct C as (rm & E & C). specialize (A rm E). unfold turns at 1, wbind.
      assert (W : fst (revision_walk_w f ctx sp si pk [] base o1 r1) <= ahead (l ++ [id]) + 4 * dues pk o1).
      { destruct base as [b|]; [|destruct f; cbn; lia]. apply IH. eapply steps_snoc; [exact T|]. now symmetry. }
      destruct (revision_walk_w f ctx sp si pk [] base o1 r1). cbn [fst] in *. lia.
    - destruct (alookup exguid_eqb id (pk_revisions pk)) as [rm|]; [specialize (A rm eq_refl)|]; lia.
    - destruct (alookup exguid_eqb id (pk_revisions pk)) as [rm|]; [specialize (A rm eq_refl)|]; lia.
    - destruct (alookup exguid_eqb id (pk_revisions pk)) as [rm|]; [specialize (A rm eq_refl)|]; lia.
  Qed.
End Bound.

(** ** Spaces and the store *)
Definition sum_revs (pk : package) : nat := total (fun e => S (revision_size (snd e))) (pk_revisions pk).
Definition sum_groups (pk : package) : nat := total (fun e => S (group_size (snd e))) (pk_groups pk).
Definition space_cost (pk : package) (si : storage_index) : nat :=
  length (si_revs si) + (2 + 3 * sum_groups pk) * sum_revs pk + 4 * sum_groups pk.

Lemma total_scale {A} (f g : A -> nat) k l : (forall x, f x <= k * g x) -> total f l <= k * total g l.
Proof.
  intro H. induction l as [|a l IH]; [cbn; lia|]. change (total f (a :: l)) with (f a + total f l). change (total g (a :: l)) with (g a + total g l).
  specialize (H a). lia.
Qed.
Lemma decls_bound pk id g : In (id, g) (pk_groups pk) -> length (og_decls g) <= sum_groups pk.
Proof. intro I. apply (total_in (fun e => S (group_size (snd e)))) in I. cbn [snd] in I. unfold group_size in I at 1. unfold sum_groups. lia. Qed.
Lemma ahead_bound pk : ahead pk (sum_groups pk) [] <= (2 + 3 * sum_groups pk) * sum_revs pk.
Proof.
  unfold ahead, sum_revs. apply total_scale. intros [id rm]. cbn [fst snd]. destruct (in_dec exguid_dec id []) as [[]|_].
  unfold rcost, revision_size. lia.
Qed.
Lemma dues_bound pk : dues pk [] <= sum_groups pk.
Proof. apply total_le. intros e _. pose proof (group_due (snd e) []). lia. Qed.

Lemma fst_space h fuel m si pk : space_parse h fuel m si pk [] <> OutOfFuel -> fst (space_parse_w h fuel m si pk []) <= space_cost pk si.
Proof.
  intro Ends. unfold space_parse_w, space_cost. cbv zeta. rewrite <- Nat.add_assoc. apply fst_bind; [apply fst_or_else, fst_serial|]. intros o E.
  unfold space_parse in Ends. cbv zeta in Ends.
  assert (Q : o = or_else (resolve_cell_revision_manifest_id pk si (cm_id m)) (find_revision_mapping_by_serial h si (cm_serial m))).
  { rewrite (snd_or_else _ _ _ (snd_serial h si (cm_serial m))) in E. congruence. }
  rewrite <- Q in Ends. clear Q E. destruct o as [id|].
  - rewrite <- (Nat.add_0_r (_ + _)). apply fst_bind; [|intros [objs rts] _; cbn; lia].
    pose proof (walk_spends pk (sum_groups pk) (decls_bound pk) (fst (cm_cell m)) (snd (cm_cell m)) si id [] []) as W.
    etransitivity; [apply (W ltac:(exists fuel; intro H; apply Ends; rewrite H; reflexivity) fuel [] id [] []); constructor|].
    pose proof (ahead_bound pk). pose proof (dues_bound pk). lia.
  - destruct (find_cell_revision_id pk (cm_id m)) as [c|]; [destruct (exguid_is_nil c)|]; cbn; lia.
Qed.
Lemma fst_object_space h fuel c si pk : parse_object_space h fuel c si pk [] <> OutOfFuel -> fst (parse_object_space_w h fuel c si pk []) <= space_cost pk si.
Proof.
  unfold parse_object_space, parse_object_space_w. destruct (alookup _ _ _) as [m|]; cbn [ok_or rbind]; [|intro; cbn; lia].
  intro H. apply fst_free. intros a E. injection E as <-. now apply fst_space.
Qed.
Lemma fst_spaces h fuel si pk done ms : forall acc, parse_spaces h fuel si pk [] done ms acc <> OutOfFuel ->
  fst (parse_spaces_w h fuel si pk [] done ms acc) <= length ms * (1 + space_cost pk si).
Proof.
  induction ms as [|m ms IH]; intros acc H; cbn [parse_spaces_w parse_spaces length] in *; [cbn; lia|].
  replace (S (length ms) * (1 + space_cost pk si)) with (1 + (space_cost pk si + length ms * (1 + space_cost pk si))) by lia. apply fst_turns.
  destruct (exguid_is_nil _); [apply IH in H; lia|]. destruct (existsb _ _); [apply IH in H; lia|].
  apply fst_bind; [apply fst_object_space; intro E; rewrite E in H; now apply H|].
  intros [id s] E. rewrite snd_object_space in E. rewrite E in H. cbn [rbind] in H. now apply IH.
Qed.

Lemma fst_find_objects h pk cell si : fst (find_objects_w h pk cell si) <= length (si_cells si) + length (si_revs si) + sum_revs pk.
Proof.
  unfold find_objects_w. apply fst_bind.
  - apply fst_or_else. pose proof (fst_find (fun m => exguid_eqb (cm_id m) cell) (o_cells h (map snd (si_cells si)))) as F.
    rewrite <- (Permutation_length (o_cells_perm h _)), map_length in F. destruct (find_w _ _) as [n o]. cbn [fst] in F.
    etransitivity; [apply fst_turns with (m := length (si_revs si))|lia]. destruct o; [apply fst_serial|cbn; lia].
  - intros o _. apply fst_free. intros rev _. apply fst_free. intros rm E. etransitivity; [apply fst_map_res|].
    unfold find_revision_manifest in E. destruct (alookup exguid_eqb rev (pk_revisions pk)) as [rm'|] eqn:L; [|discriminate E]. injection E as ->.
    apply (lookup_in _ PackageRT.exguid_eqb_eq) in L. apply (total_in (fun e => S (revision_size (snd e)))) in L. cbn [snd] in L. unfold revision_size in L at 1.
    unfold sum_revs. lia.
Qed.
Lemma fst_opt_map {A B} (f : A -> work B) o n : (forall a, o = Some a -> fst (f a) <= n) -> fst (opt_map_w f o) <= n.
Proof.
  intro F. destruct o as [a|]; [|cbn; lia]. cbn [opt_map_w]. rewrite <- (Nat.add_0_r n). apply fst_bind; [now apply F|]. intros. cbn. lia.
Qed.
Lemma fst_header_guid v : fst (header_guid_w v) <= 1.
Proof. destruct v; try (cbn; lia). cbn [header_guid_w]. unfold run_w, guid_parse_n, nbind, get_u128_n, call. match goal with |- context [get_u128 ?d] => destruct (get_u128 d) as [[x r]| | |] end; cbn; lia. Qed.
Lemma group_bound pk id g : In (id, g) (pk_groups pk) -> total (fun d => S (odata_size d)) (og_objects g) <= sum_groups pk /\ length (og_objects g) <= sum_groups pk.
Proof.
  intro I. apply (total_in (fun e => S (group_size (snd e)))) in I. cbn [snd] in I. unfold group_size in I at 1. fold (sum_groups pk) in I.
  assert (length (og_objects g) <= total (fun d => S (odata_size d)) (og_objects g)); [|lia].
  clear. induction (og_objects g) as [|a l IH]; [cbn; lia|]. change (total ?f (a :: l)) with (f a + total f l). cbn [length]. cbv beta. lia.
Qed.
Lemma fst_header pk id g : In (id, g) (pk_groups pk) -> fst (header_parse_store_w g) <= 5 * sum_groups pk + 3.
Proof.
  intro I. destruct (group_bound pk id g I) as (G1 & G2). unfold header_parse_store_w.
  pose proof (fst_find (fun p : odecl * odata => (decl_partition (fst p) =? 1)%N) (combine (og_decls g) (og_objects g))) as F.
  pose proof (snd_find (fun p : odecl * odata => (decl_partition (fst p) =? 1)%N) (combine (og_decls g) (og_objects g))) as Q.
  rewrite combine_length in F. destruct (find_w _ _) as [n p]. cbn [fst snd] in F, Q.
  etransitivity; [apply fst_turns with (m := 4 * sum_groups pk + 3)|lia]. apply fst_free. intros [dc o] E. destruct p as [p|]; [|discriminate E]. injection E as ->.
  symmetry in Q. apply find_some in Q as (Q & _). apply in_combine_r in Q. apply (total_in (fun d => S (odata_size d))) in Q.
  apply fst_free. intros d E. destruct o as [gr c d'| |]; try discriminate E. injection E as ->. cbn [odata_size] in Q.
  etransitivity; [apply fst_bind with (n := 4 * length d + 1) (m := 2)|lia]; [apply fst_run, oprops_cheap; lia|].
  intros ps _. apply (fst_bind _ _ 1 1); [apply fst_opt_map; intros; apply fst_header_guid|]. intros fi _. apply fst_free. intros fi' _.
  rewrite <- (Nat.add_0_r 1). apply fst_bind; [apply fst_opt_map; intros; apply fst_header_guid|]. intros ai _.
  do 4 (apply fst_free; intros ? _). cbn. lia.
Qed.

Lemma fst_store h fuel pg si : parse_store h fuel pg <> OutOfFuel ->
  or_else (find_storage_index_by_id (pg_package pg) (pg_storage_index pg)) (find_storage_index h (pg_package pg)) = Some si ->
  fst (parse_store_w h fuel pg) <= length (si_cells si) + length (si_revs si) + sum_revs (pg_package pg) + 5 * sum_groups (pg_package pg) + 3 +
    (1 + length (si_cells si)) * (1 + space_cost (pg_package pg) si).
Proof.
  intros Ends SI. unfold parse_store_w. unfold parse_store in Ends. cbv zeta in *. rewrite SI in *. cbn [ok_or rbind] in Ends.
  set (pk := pg_package pg) in *. apply fst_free. intros x E. injection E as <-. apply fst_free. intros sm E. rewrite E in Ends. cbn [rbind] in Ends.
  apply fst_free. intros hc E1. rewrite E1 in Ends. cbn [rbind] in Ends. apply fst_free. intros hm E2. rewrite E2 in Ends. cbn [rbind] in Ends.
  rewrite <- !Nat.add_assoc. rewrite (Nat.add_assoc (length (si_revs si))), (Nat.add_assoc (length (si_cells si))), (Nat.add_assoc (length (si_cells si))).
  apply fst_bind; [apply fst_find_objects|]. intros gs E3. rewrite snd_objects in E3. rewrite E3 in Ends. cbn [rbind] in Ends.
  apply fst_free. intros hg E4. rewrite E4 in Ends. cbn [rbind] in Ends.
  assert (I : exists k, In (k, hg) (pk_groups pk)).
  { destruct gs as [|g gs]; [discriminate E4|]. injection E4 as ->. unfold find_objects in E3. apply rbind_ok in E3 as (rev & _ & E3).
    apply rbind_ok in E3 as (rm & _ & E3). destruct (rm_groups rm) as [|r rs]; [discriminate E3|]. cbn [map_res] in E3.
    apply rbind_ok in E3 as (b & E5 & E3). apply rbind_ok in E3 as (bs & _ & E3). injection E3 as -> ->. unfold find_object_group in E5.
    destruct (alookup exguid_eqb r (pk_groups pk)) as [g|] eqn:L; [|discriminate E5]. injection E5 as ->. exists r. now apply (lookup_in _ PackageRT.exguid_eqb_eq). }
  destruct I as (k & I). rewrite Nat.add_assoc. apply fst_bind; [apply (fst_header pk k hg I)|]. intros hd E5. rewrite snd_header in E5. rewrite E5 in Ends. cbn [rbind] in Ends.
  apply fst_free. intros rc E6. rewrite E6 in Ends. cbn [rbind] in Ends.
  replace ((1 + length (si_cells si)) * (1 + space_cost pk si)) with (space_cost pk si + (1 + length (si_cells si) * (1 + space_cost pk si))) by lia.
  apply fst_bind; [apply fst_object_space; intro Q; rewrite Q in Ends; now apply Ends|]. intros [x root] E7. rewrite snd_object_space in E7. rewrite E7 in Ends. cbn [rbind] in Ends.
  rewrite Nat.add_comm. apply fst_bind; [|intros; cbn; lia].
  etransitivity; [apply fst_spaces; intro Q; rewrite Q in Ends; now apply Ends|]. rewrite <- (Permutation_length (o_cells_perm h _)), map_length. lia.
Qed.

Lemma index_in h pk id si : or_else (find_storage_index_by_id pk id) (find_storage_index h pk) = Some si -> exists k, In (k, si) (pk_indexes pk).
Proof.
  intro SI. unfold or_else, find_storage_index_by_id, find_storage_index in SI. destruct (alookup _ _ _) as [si'|] eqn:A.
  - injection SI as ->. eexists. exact (lookup_in _ PackageRT.exguid_eqb_eq _ _ _ A).
  - assert (J : In si (o_indexes h (map snd (pk_indexes pk)))) by (destruct (o_indexes h _); [discriminate SI|injection SI as ->; now left]).
    apply (Permutation_in _ (Permutation_sym (o_indexes_perm h _))) in J. apply in_map_iff in J as ([k y] & Q & J). exists k. cbn in Q. now subst.
Qed.
Lemma cube c v r g s n : n = c + v + r + g + s + 1 ->
  4 * n + 4 + (c + v + r + 5 * g + 3 + (1 + c) * (1 + (v + (2 + 3 * g) * r + 4 * g))) <= (n + 2) * (n + 2) * (n + 2).
Proof. intros ->. nia. Qed.
Lemma open_cost h fuel bs : open_store h fuel bs <> OutOfFuel -> fst (open_store_w h fuel bs) <= (length bs + 2) ^ 3.
Proof.
  intro Ends. replace ((length bs + 2) ^ 3) with ((length bs + 2) * (length bs + 2) * (length bs + 2)) by (cbn [Nat.pow]; lia).
  unfold open_store_w. unfold open_store in Ends. pose proof (fst_run packaging_parse_n 4 bs (packaging_cheap 4 (le_n 4))) as P.
  pose proof (snd_run packaging_parse_n packaging_parse bs same_packaging) as Q.
  destruct (run_w packaging_parse_n bs) as [n r]. cbn [fst snd] in P, Q. subst r. unfold wbind.
  unfold run in *. destruct (packaging_parse bs) as [[pg rest]| | |] eqn:E; cbn [rbind] in *; try (cbn [fst]; nia).
  apply sized_packaging in E. unfold package_size in E. fold (sum_revs (pg_package pg)) (sum_groups (pg_package pg)) in E.
  destruct (or_else (find_storage_index_by_id (pg_package pg) (pg_storage_index pg)) (find_storage_index h (pg_package pg))) as [si|] eqn:SI.
  - pose proof (fst_store h fuel pg si Ends SI) as C. destruct (index_in _ _ _ _ SI) as (k & I).
    apply (total_in (fun e => S (index_size (snd e)))) in I. cbn [snd] in I. unfold index_size in I at 1.
    destruct (parse_store_w h fuel pg) as [m r]. cbn [fst] in *. unfold space_cost in C.
    pose proof (cube (length (si_cells si)) (length (si_revs si)) (sum_revs (pg_package pg)) (sum_groups (pg_package pg))
      (length bs - (length (si_cells si) + length (si_revs si) + sum_revs (pg_package pg) + sum_groups (pg_package pg) + 1)) (length bs)) as K. lia.
  - unfold parse_store_w. cbv zeta. rewrite SI. cbn. nia.
Qed.
