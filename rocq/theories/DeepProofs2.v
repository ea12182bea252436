(** Proofs for C90: how many steps decide. *)
From Coq Require Import Lia ZifyBool ZifyNat ZifyN Permutation Relations.
From Verif Require Import Base BaseProofs Codec Package PropSet PropIds Store Shapes Props Nodes Doc SpecCodec SpecStore SpecPackage SpecValues SpecNodes
  NodesProofs NodesProofs2 NodesProofs3 StoreProofs StoreProofs2 StoreProofs3 PackageProofs PackageFacts SpecDoc DocProofs DocProofs2 DocProofs3 DocProofs4 DocProofs5 DocProofs6
  Notebook OnceProofs PackageFacts SpecCause SpecFate FateProofs.
Local Open Scope nat_scope.

Lemma refines_bind_ok {A B} (r r' : res A) (f f' : A -> res B) :
  refines r r' -> (forall a, r = Ok a -> refines (f a) (f' a)) -> refines (rbind r f) (rbind r' f').
Proof.
  intros H1 H2 H. destruct r as [a|e| |]; cbn [rbind] in *; try (now rewrite H1 by discriminate); [|congruence].
  rewrite H1 by discriminate. cbn [rbind]. apply H2; auto.
Qed.

(** ** Duplicates *)
Lemma exguid_dec (a b : exguid) : {a = b} + {a <> b}.
Proof.
  destruct (exguid_eqb a b) eqn:E; [left; now apply PackageRT.exguid_eqb_eq|right].
  intros H. apply PackageRT.exguid_eqb_eq in H. congruence.
Qed.
Lemma twice (l : list exguid) : NoDup l \/ exists a b c x, l = a ++ x :: b ++ x :: c.
Proof.
  induction l as [|x l IH]; [left; constructor|]. destruct (in_dec exguid_dec x l) as [I|I].
  - right. apply in_split in I as (b & c & ->). exists [], b, c, x. reflexivity.
  - destruct IH as [N|(a & b & c & y & ->)]; [left; now constructor|right]. exists (x :: a), b, c, y. reflexivity.
Qed.

(** ** Revisions *)
Section Walk.
  Variables (ctx spid : exguid) (si : storage_index) (pk : package).
  Definition wider (o o' : objects) : Prop := forall id, amember exguid_eqb id o = true -> amember exguid_eqb id o' = true.
  Lemma wider_refl o : wider o o.
  Proof. intros id H; exact H. Qed.
  Lemma amember_insert id x v (m : objects) : amember exguid_eqb id (ainsert exguid_eqb x v m) = exguid_eqb x id || amember exguid_eqb id m.
  Proof.
    unfold amember. rewrite (PackageRT.alookup_insert exguid_eqb PackageRT.exguid_eqb_eq). destruct (exguid_eqb x id) eqn:E.
    - reflexivity.
    - reflexivity.
  Qed.
  Lemma wider_insert id v v' o o' : wider o o' -> wider (ainsert exguid_eqb id v o) (ainsert exguid_eqb id v' o').
  Proof.
    intros W x. rewrite !amember_insert, !Bool.orb_true_iff. intros [E|E]; [now left|right; now apply W].
  Qed.
  Lemma group_wider g data ids : forall o o' o1, wider o o' -> group_objects pk ctx spid g data ids o = Ok o1 ->
    wider o o1 /\ exists o2, group_objects pk ctx spid g data ids o' = Ok o2 /\ wider o1 o2 .
  Proof.
    induction ids as [|id ids IH]; intros o o' o1 W H; cbn [group_objects] in *.
    - injection H as <-. split; [apply wider_refl|]. eauto.
    - destruct (amember exguid_eqb id o) eqn:M.
      + rewrite (W _ M). exact (IH _ _ _ W H).
      + destruct (negb _) eqn:N; [discriminate H|]. apply rbind_ok in H as (ob & E & H).
        destruct (amember exguid_eqb id o') eqn:M'.
        * destruct (IH (ainsert exguid_eqb id ob o) o' o1) as (W1 & W2).
          { intros x. rewrite amember_insert, Bool.orb_true_iff. intros [X|X]; [|now apply W]. apply PackageRT.exguid_eqb_eq in X. now subst. }
          { exact H. }
          split; [|exact W2]. intros x X. apply W1. rewrite amember_insert, X. apply Bool.orb_true_r.
        * rewrite E. cbn [rbind]. destruct (IH _ (ainsert exguid_eqb id ob o') _ (wider_insert id ob ob o o' W) H) as (W1 & W2).
          split; [|exact W2]. intros x X. apply W1. rewrite amember_insert, X. apply Bool.orb_true_r.
  Qed.
  Lemma wider_trans a b c : wider a b -> wider b c -> wider a c.
  Proof. intros H1 H2 x X. auto. Qed.
  Lemma groups_wider gs : forall o o' o1, wider o o' -> parse_groups pk ctx spid gs o = Ok o1 ->
    wider o o1 /\ exists o2, parse_groups pk ctx spid gs o' = Ok o2 /\ wider o1 o2.
  Proof.
    induction gs as [|g gs IH]; intros o o' o1 W H; cbn [parse_groups] in *.
    - injection H as <-. split; [apply wider_refl|]. eauto.
    - apply rbind_ok in H as (o3 & E & H). unfold parse_group in E. apply rbind_ok in E as (gr & G & E). cbv zeta in E.
      destruct (group_wider _ _ _ _ _ _ W E) as (W1 & o4 & E' & W2). destruct (IH _ _ _ W2 H) as (W3 & o5 & E5 & W5).
      split; [now apply (wider_trans o o3)|]. exists o5. split; [|exact W5]. unfold parse_group at 1. rewrite G. cbn [rbind]. cbv zeta.
      rewrite E'. exact E5.
  Qed.
  Lemma revision_wider id o o' r r' b o1 r1 : wider o o' -> revision_parse id ctx spid si pk [] o r = Ok (b, o1, r1) ->
    wider o o1 /\ exists o2 r2, revision_parse id ctx spid si pk [] o' r' = Ok (b, o2, r2) /\ wider o1 o2.
  Proof.
    intros W H. unfold revision_parse in *. apply rbind_ok in H as (rm & -> & H). cbn [rbind]. apply rbind_ok in H as (base & -> & H). cbn [rbind].
    cbn [alookup] in *. apply rbind_ok in H as (new & -> & H). cbn [rbind]. cbv zeta in *. apply rbind_ok in H as (o3 & E & H).
    injection H as <- <- <-. destruct (groups_wider _ _ _ _ W E) as (W1 & o4 & -> & W2). split; [exact W1|]. cbn [rbind]. eauto.
  Qed.

  (** Steps of the walk, with the revisions passed. *)
  Inductive steps : list exguid -> exguid -> objects -> roots -> exguid -> objects -> roots -> Prop :=
  | st_none id o r : steps [] id o r id o r
  | st_one id o r b o1 r1 l id' o' r' : revision_parse id ctx spid si pk [] o r = Ok (Some b, o1, r1) ->
      steps l b o1 r1 id' o' r' -> steps (id :: l) id o r id' o' r'.
  Local Notation walk f id o r := (revision_walk f ctx spid si pk [] (Some id) o r).
  Lemma stuck_steps f : forall id o r, walk f id o r = OutOfFuel -> exists l id' o' r', length l = f /\ steps l id o r id' o' r'.
  Proof.
    induction f as [|f IH]; intros id o r H; [exists [], id, o, r; split; [reflexivity|constructor]|]. cbn [revision_walk] in H.
    destruct (revision_parse id ctx spid si pk [] o r) as [[[b o1] r1]| | |] eqn:E; cbn [rbind] in H; try discriminate H.
    - destruct b as [b|]; [|destruct f; discriminate H]. destruct (IH _ _ _ H) as (l & id' & o' & r' & L & T).
      exists (id :: l), id', o', r'. split; [cbn [length]; lia|]. exact (st_one _ _ _ _ _ _ _ _ _ _ E T).
    - destruct (revision_parse_settled id ctx spid si pk [] o r) as [P _]. congruence.
  Qed.
  Lemma steps_walk l id o r id' o' r' n : steps l id o r id' o' r' -> walk (length l + n) id o r = walk n id' o' r'.
  Proof.
    intros T. induction T as [id o r|id o r b o1 r1 l id' o' r' E T IH]; [reflexivity|]. cbn [length Nat.add revision_walk]. rewrite E. exact IH.
  Qed.
  Lemma steps_app l : forall l' id o r id2 o2 r2, steps (l ++ l') id o r id2 o2 r2 ->
    exists id1 o1 r1, steps l id o r id1 o1 r1 /\ steps l' id1 o1 r1 id2 o2 r2.
  Proof.
    induction l as [|x l IH]; intros l' id o r id2 o2 r2 T.
    - exists id, o, r. split; [constructor|exact T].
    - inversion T as [|? ? ? b o1 r1 ? ? ? ? E T']; subst. destruct (IH _ _ _ _ _ _ _ T') as (id1 & o3 & r3 & T1 & T2).
      exists id1, o3, r3. split; [|exact T2]. exact (st_one _ _ _ _ _ _ _ _ _ _ E T1).
  Qed.
  Lemma steps_at x l id o r id' o' r' : steps (x :: l) id o r id' o' r' -> id = x.
  Proof. intros T. now inversion T. Qed.
  Lemma steps_wider l id o r id' o' r' : steps l id o r id' o' r' -> wider o o'.
  Proof.
    intros T. induction T as [id o r|id o r b o1 r1 l id' o' r' E T IH]; [apply wider_refl|].
    apply (wider_trans o o1); [|exact IH]. exact (proj1 (revision_wider _ _ _ _ r _ _ _ (wider_refl o) E)).
  Qed.
  Lemma stuck_wider f : forall id o o' r r', wider o o' -> walk f id o r = OutOfFuel -> walk f id o' r' = OutOfFuel.
  Proof.
    induction f as [|f IH]; intros id o o' r r' W H; [reflexivity|]. cbn [revision_walk] in *.
    destruct (revision_parse id ctx spid si pk [] o r) as [[[b o1] r1]| | |] eqn:E; cbn [rbind] in H; try discriminate H.
    - destruct (revision_wider _ _ _ _ r' _ _ _ W E) as (_ & o2 & r2 & -> & W2). cbn [rbind].
      destruct b as [b|]; [|destruct f; discriminate H]. exact (IH _ _ _ _ _ W2 H).
    - destruct (revision_parse_settled id ctx spid si pk [] o r) as [P _]. congruence.
  Qed.
  Lemma stuck_less f f' id o r : f <= f' -> walk f' id o r = OutOfFuel -> walk f id o r = OutOfFuel.
  Proof.
    intros L H. destruct (walk f id o r) as [y|e| |] eqn:E; [| | |reflexivity];
      pose proof (walk_more f f' ctx spid si pk [] (Some id) o r L) as M; rewrite E in M; specialize (M ltac:(discriminate)); congruence.
  Qed.
  (** Round once, round for ever. *)
  Lemma round l id o r o' r' : l <> [] -> steps l id o r id o' r' -> forall n, walk n id o r = OutOfFuel.
  Proof.
    intros Ne T n. induction n as [n IH] using (well_founded_induction lt_wf).
    destruct (Nat.le_gt_cases n (length l)) as [L|L].
    - apply (stuck_less n (length l)); [exact L|]. pose proof (steps_walk l id o r id o' r' 0 T) as E. rewrite Nat.add_0_r in E. exact E.
    - assert (P : 0 < length l) by (destruct l; [congruence|cbn; lia]).
      replace n with (length l + (n - length l)) by lia. rewrite (steps_walk _ _ _ _ _ _ _ _ T).
      apply (stuck_wider _ id o o' r r' (steps_wider _ _ _ _ _ _ _ T)). apply IH. lia.
  Qed.
  Lemma steps_found l id o r id' o' r' : steps l id o r id' o' r' -> incl l (map fst (pk_revisions pk)).
  Proof.
    intros T. induction T as [id o r|id o r b o1 r1 l id' o' r' E T IH]; intros x I; [destruct I|]. destruct I as [<-|I]; [|now apply IH].
    unfold revision_parse in E. apply rbind_ok in E as (rm & H & _). apply ok_or_ok in H. unfold find_revision_manifest in H.
    apply (alookup_in exguid_eqb PackageRT.exguid_eqb_eq) in H. now apply (in_map fst) in H.
  Qed.
  Lemma walk_stuck F id o r : length (pk_revisions pk) < F -> walk F id o r = OutOfFuel -> forall n, walk n id o r = OutOfFuel.
  Proof.
    intros L H n. destruct (stuck_steps F id o r H) as (l & id' & o' & r' & E & T).
    destruct (twice l) as [N|(a & b & c & x & ->)].
    - pose proof (NoDup_incl_length N (steps_found _ _ _ _ _ _ _ T)) as K. rewrite map_length in K. lia.
    - apply steps_app in T as (id1 & o1 & r1 & Ta & T). pose proof (steps_at _ _ _ _ _ _ _ _ T) as ->.
      change (x :: b ++ x :: c) with ((x :: b) ++ x :: c) in T. apply steps_app in T as (id2 & o2 & r2 & Tb & T).
      pose proof (steps_at _ _ _ _ _ _ _ _ T) as ->.
      destruct (Nat.le_gt_cases n (length a)) as [M|M].
      + apply (stuck_less n (length a)); [exact M|]. pose proof (steps_walk a _ _ _ _ _ _ 0 Ta) as Z. rewrite Nat.add_0_r in Z. exact Z.
      + replace n with (length a + (n - length a)) by lia. rewrite (steps_walk _ _ _ _ _ _ _ _ Ta).
        apply (round (x :: b) x o1 r1 o2 r2); [discriminate|exact Tb].
  Qed.
  Lemma walk_enough F f id o r : length (pk_revisions pk) < F ->
    refines (revision_walk f ctx spid si pk [] id o r) (revision_walk F ctx spid si pk [] id o r).
  Proof.
    intros L N. destruct id as [id|]; [|destruct f, F; reflexivity].
    destruct (Nat.le_gt_cases f F) as [M|M]; [exact (walk_more f F ctx spid si pk [] (Some id) o r M N)|].
    destruct (walk F id o r) as [y|e| |] eqn:E.
    4:{ destruct N. exact (walk_stuck F id o r L E f). }
    all: rewrite <- E; symmetry; apply (walk_more F f ctx spid si pk [] (Some id) o r); [lia|rewrite E; discriminate].
  Qed.
End Walk.

Lemma space_enough h f F m si pk : length (pk_revisions pk) < F ->
  refines (space_parse h f m si pk []) (space_parse h F m si pk []).
Proof. intro L. unfold space_parse. repeat more. now apply walk_enough. Qed.
Lemma object_space_enough h f F c si pk : length (pk_revisions pk) < F ->
  refines (parse_object_space h f c si pk []) (parse_object_space h F c si pk []).
Proof. intro L. unfold parse_object_space. more. now apply space_enough. Qed.
Lemma spaces_enough h f F si pk done ms : length (pk_revisions pk) < F -> forall acc,
  refines (parse_spaces h f si pk [] done ms acc) (parse_spaces h F si pk [] done ms acc).
Proof.
  intro L. induction ms as [|m ms IH]; intro acc; cbn [parse_spaces]; [more|].
  do 2 (more; [apply IH|]). more; [now apply object_space_enough|]. more. apply IH.
Qed.
Lemma store_enough h f F pg : length (pk_revisions (pg_package pg)) < F -> refines (parse_store h f pg) (parse_store h F pg).
Proof.
  intro L. unfold parse_store. cbv zeta. do 8 more. more; [now apply object_space_enough|]. more.
  more; [now apply spaces_enough|]. more.
Qed.
Lemma revisions_size pk : length (pk_revisions pk) <= package_size pk.
Proof.
  unfold package_size. enough (length (pk_revisions pk) <= total (fun e => S (revision_size (snd e))) (pk_revisions pk)) by lia.
  induction (pk_revisions pk) as [|e l IH]; [cbn; lia|]. change (total ?f (e :: l)) with (f e + total f l). cbn [length]. lia.
Qed.
Lemma open_enough h f F d : length d < F -> refines (open_store h f d) (open_store h F d).
Proof.
  intro L. unfold open_store, run. destruct (packaging_parse d) as [[pg rest]| | |] eqn:E; cbn [rbind]; try apply refines_refl.
  apply store_enough. pose proof (sized_packaging d pg rest E). pose proof (revisions_size (pg_package pg)). lia.
Qed.

(** ** Outlines *)
(** The first runs out of steps, the second does not. *)
Definition short {A} (r r' : res A) : Prop := r = OutOfFuel /\ r' <> OutOfFuel.
Lemma short_refl {A} (r : res A) : ~ short r r.
Proof. intros (E & N). contradiction. Qed.
Lemma short_bind {A B} (r r' : res A) (k k' : A -> res B) : refines r r' -> short (rbind r k) (rbind r' k') ->
  short r r' \/ exists a, r = Ok a /\ short (k a) (k' a).
Proof.
  intros R (E & N). destruct r as [a|e| |]; cbn [rbind] in E; try discriminate E.
  - right. exists a. split; [reflexivity|]. rewrite (R ltac:(discriminate)) in N. split; [exact E|exact N].
  - left. split; [reflexivity|]. intros ->. apply N. reflexivity.
Qed.
Lemma short_same {A B} (r : res A) (k k' : A -> res B) : short (rbind r k) (rbind r k') -> exists a, r = Ok a /\ short (k a) (k' a).
Proof. intros H. apply (short_bind r r) in H as [H|H]; [destruct (short_refl _ H)|exact H|apply refines_refl]. Qed.
Lemma short_end {A B} (r r' : res A) (k : A -> res B) : refines r r' -> short (rbind r k) (rbind r' k) -> short r r'.
Proof. intros R H. apply short_bind in H as [H|(a & _ & H)]; [exact H|destruct (short_refl _ H)|exact R]. Qed.
Lemma short_map {A B} (f g : A -> res B) l : (forall a, refines (f a) (g a)) -> short (map_res f l) (map_res g l) ->
  exists a, In a l /\ short (f a) (g a).
Proof.
  intros R. induction l as [|a l IH]; intros H; cbn [map_res] in H; [destruct (short_refl _ H)|].
  apply short_bind in H as [H|(b & _ & H)]; [exists a; split; [now left|exact H]| |apply R].
  apply short_end in H; [|now apply refines_map]. destruct (IH H) as (x & I & S). exists x. split; [now right|exact S].
Qed.
Lemma short_table el el' id sp : (forall a, refines (el a) (el' a)) -> short (parse_table el id sp) (parse_table el' id sp) ->
  exists a, short (el a) (el' a).
Proof.
  intros R H. unfold parse_table in H. apply short_same in H as (o & _ & H). apply short_same in H as (d & _ & H).
  apply short_end in H. 2:{ apply refines_map. intro. unfold parse_row. do 2 more. more; [|more]. more. unfold parse_cell. do 2 more. more; [|more]. more. apply R. }
  apply short_map in H as (r & _ & H). 2:{ intro. unfold parse_row. do 2 more. more; [|more]. more. unfold parse_cell. do 2 more. more; [|more]. more. apply R. }
  unfold parse_row in H. apply short_same in H as (ro & _ & H). apply short_same in H as (rd & _ & H).
  apply short_end in H. 2:{ more. unfold parse_cell. do 2 more. more; [|more]. more. apply R. }
  apply short_map in H as (c & _ & H). 2:{ intro. unfold parse_cell. do 2 more. more; [|more]. more. apply R. }
  unfold parse_cell in H. apply short_same in H as (co & _ & H). apply short_same in H as (cd & _ & H).
  apply short_end in H. 2:{ more. apply R. }
  apply short_map in H as (a & _ & H); [eauto|exact R].
Qed.

Section Outline.
  Variable sp : space.
  Definition needs (n : nat) (x : exguid * role) : Prop :=
    match snd x with
    | R_item => short (parse_outline_item n sp (fst x)) (parse_outline_item (S n) sp (fst x))
    | R_element => short (parse_outline_element n sp (fst x)) (parse_outline_element (S n) sp (fst x))
    | R_content => short (parse_content n sp (fst x)) (parse_content (S n) sp (fst x))
    | _ => False
    end.
  Lemma needs_one n m x : needs n x -> needs m x -> n = m.
  Proof.
    assert (K : forall n m x, n < m -> needs n x -> needs m x -> False).
    { clear n m x. intros n m [i r] L. unfold needs. cbn [fst snd]. destruct (item_more (S n) m sp i L) as (I & E & C).
      destruct r; auto; intros (_ & N) (F & _).
      - apply N. rewrite <- I by exact N. exact F.
      - apply N. rewrite <- E by exact N. exact F.
      - apply N. rewrite <- C by exact N. exact F. }
    intros H1 H2. destruct (Nat.lt_trichotomy n m) as [L|[L|L]]; [destruct (K _ _ _ L H1 H2)|exact L|destruct (K _ _ _ L H2 H1)].
  Qed.
  Lemma needs_less n x : needs (S n) x -> passed sp x /\ exists y, needs n y.
  Proof.
    assert (Ri : forall a, refines (parse_outline_item n sp a) (parse_outline_item (S n) sp a)) by (intro a; apply item_more; lia).
    assert (Re : forall a, refines (parse_outline_element n sp a) (parse_outline_element (S n) sp a)) by (intro a; apply item_more; lia).
    assert (Rc : forall a, refines (parse_content n sp a) (parse_content (S n) sp a)) by (intro a; apply item_more; lia).
    destruct x as [i r]. unfold needs. cbn [fst snd]. remember (S n) as m eqn:Em.
    destruct r; try contradiction; intros H.
    - rewrite Em in H at 1. cbn [parse_outline_item] in H. apply short_same in H as (o & Ho & H). apply need_ok in Ho.
      apply short_same in H as (k & Hk & H). apply need_kind_ok in Hk. split.
      + exists o. split; [exact Ho|]. left. split; [reflexivity|]. cbn [snd].
        destruct k; try (destruct (short_refl _ H)); cbn in Hk; auto.
      + destruct k; try (destruct (short_refl _ H)).
        * apply short_end in H; [|apply Re]. exists (i, R_element). exact H.
        * apply short_same in H as (go & _ & H). apply short_same in H as (d & _ & H). apply short_end in H; [|now apply refines_map].
          apply short_map in H as (a & _ & H); [|exact Ri]. exists (a, R_item). exact H.
    - rewrite Em in H at 1. cbn [parse_outline_element] in H. apply short_same in H as (o & Ho & H). apply need_ok in Ho.
      apply short_same in H as (d & Hd & H). apply element_ok in Hd. split.
      + exists o. split; [exact Ho|]. right; left. split; [reflexivity|]. exact (element_jcid _ _ Hd).
      + apply short_bind in H as [H|(l & _ & H)]; [| |now apply refines_map].
        * apply short_map in H as (a & _ & H); [|exact Ri]. exists (a, R_item). exact H.
        * apply short_bind in H as [H|(l' & _ & H)]; [|destruct (short_refl _ H)|now apply refines_map].
          apply short_map in H as (a & _ & H); [|exact Rc]. exists (a, R_content). exact H.
    - rewrite Em in H at 1. cbn [parse_content] in H. apply short_same in H as (o & Ho & H). apply need_ok in Ho.
      apply short_same in H as (k & Hk & H). apply need_kind_ok in Hk. destruct k; try (destruct (short_refl _ H)). split.
      + exists o. split; [exact Ho|]. right; right. split; [reflexivity|exact Hk].
      + apply short_end in H; [|now apply table_more]. apply short_table in H as (a & H); [|exact Re].
        exists (a, R_element). exact H.
  Qed.
  Lemma needs_list n : forall x, needs n x -> exists v, length v = n /\ NoDup v /\ forall y, In y v -> passed sp y /\ exists m, m <= n /\ needs m y.
  Proof.
    induction n as [|n IH]; intros x H; [exists []; repeat split; [constructor|destruct H0..]|].
    destruct (needs_less n x H) as (P & y & K). destruct (IH y K) as (v & L & D & Q). exists (x :: v). split; [cbn [length]; lia|]. split.
    - constructor; [|exact D]. intros I. destruct (Q x I) as (_ & m & M & N). pose proof (needs_one _ _ _ H N). lia.
    - intros z [<-|I]; [split; [exact P|exists (S n); auto]|]. destruct (Q z I) as (Pz & m & M & N). split; [exact Pz|exists m; auto].
  Qed.
  Lemma passed_bound v : NoDup v -> (forall y, In y v -> passed sp y) -> length v <= 2 * length (sp_objects sp).
  Proof.
    intros Nd P. assert (N : NoDup (map key v)).
    { clear - Nd P. induction Nd as [|a v N Nd IH]; cbn; [constructor|]. constructor.
      - intros I. apply in_map_iff in I as (b & E & I).
        assert (b = a) as -> by (apply (key_inj sp); [apply P; now right|apply P; now left|exact E]). contradiction.
      - apply IH. intros y I. apply P. now right. }
    assert (I : incl (map key v) (list_prod (map fst (sp_objects sp)) [true; false])).
    { intros k K. apply in_map_iff in K as ([i r] & <- & K). apply P in K as (o & G & _). unfold key. cbn [fst snd] in *.
      apply in_prod; [|destruct (is_element r); cbn; tauto].
      unfold get_object in G. apply (alookup_in exguid_eqb PackageRT.exguid_eqb_eq) in G. now apply (in_map fst) in G. }
    apply (NoDup_incl_length N) in I. rewrite prod_length, !map_length in I. cbn [length] in I. lia.
  Qed.
  Lemma needs_bound n x : needs n x -> n <= 2 * length (sp_objects sp).
  Proof. intros H. destruct (needs_list n x H) as (v & <- & D & Q). apply passed_bound; [exact D|]. intros y I. apply (Q y I). Qed.

  (** Between running out of steps and not there is a last time. *)
  Lemma last_time {A} (r : nat -> res A) F f : F <= f -> r F = OutOfFuel -> r f <> OutOfFuel -> exists n, F <= n /\ short (r n) (r (S n)).
  Proof.
    intros L. induction L as [|f L IH]; intros E N; [contradiction|].
    destruct (r f) as [y|e| |] eqn:Z; [apply IH; [exact E|discriminate]..|]. exists f. split; [exact L|]. split; [exact Z|exact N].
  Qed.
  Lemma item_enough f F id : 2 * length (sp_objects sp) < F -> refines (parse_outline_item f sp id) (parse_outline_item F sp id).
  Proof.
    intros L N. destruct (Nat.le_gt_cases f F) as [M|M]; [exact (proj1 (item_more f F sp id M) N)|].
    destruct (parse_outline_item F sp id) as [y|e| |] eqn:E.
    4:{ destruct (last_time (fun n => parse_outline_item n sp id) F f) as (n & Ln & S); [lia|exact E|exact N|].
        pose proof (needs_bound n (id, R_item) S). lia. }
    all: rewrite <- E; symmetry; apply (proj1 (item_more F f sp id ltac:(lia))); rewrite E; discriminate.
  Qed.
  Lemma outline_enough f F id : 2 * length (sp_objects sp) < F -> refines (parse_outline f sp id) (parse_outline F sp id).
  Proof. intro L. unfold parse_outline. repeat more. now apply item_enough. Qed.
  Lemma page_enough f F : 2 * length (sp_objects sp) < F -> refines (parse_page f sp) (parse_page F sp).
  Proof.
    intro L. unfold parse_page. do 3 more. more; [|more; [|more]]; more.
    - unfold parse_title. do 2 more. more; [|more]. more. now apply outline_enough.
    - unfold parse_page_content. do 2 more. destruct a5; try apply refines_refl. more; [|more]. now apply outline_enough.
  Qed.
End Outline.

(** ** Tables of contents *)
Lemma toc_short sp n id : short (parse_toc_entry (S n) sp id) (parse_toc_entry (S (S n)) sp id) ->
  (exists o, get_object sp id = Some o) /\ exists id', short (parse_toc_entry n sp id') (parse_toc_entry (S n) sp id').
Proof.
  intros H. remember (S n) as m eqn:Em. rewrite Em in H at 1. cbn [parse_toc_entry] in H. apply short_same in H as (o & Ho & H).
  apply need_ok in Ho. split; [eauto|]. apply short_same in H as (d & _ & H).
  destruct (tc_filename d); [destruct (short_refl _ H)|].
  assert (R : forall a, refines (parse_toc_entry n sp a) (parse_toc_entry m sp a)) by (intro a; apply toc_entry_more; lia).
  apply short_end in H; [|now apply refines_map]. apply short_map in H as (a & _ & H); [eauto|exact R].
Qed.
Lemma toc_one sp n m id : short (parse_toc_entry n sp id) (parse_toc_entry (S n) sp id) ->
  short (parse_toc_entry m sp id) (parse_toc_entry (S m) sp id) -> n = m.
Proof.
  assert (K : forall n m, n < m -> short (parse_toc_entry n sp id) (parse_toc_entry (S n) sp id) ->
    short (parse_toc_entry m sp id) (parse_toc_entry (S m) sp id) -> False).
  { intros a b L (_ & N) (F & _). apply N. rewrite <- (toc_entry_more (S a) b sp id L N). exact F. }
  intros H1 H2. destruct (Nat.lt_trichotomy n m) as [L|[L|L]]; [destruct (K _ _ L H1 H2)|exact L|destruct (K _ _ L H2 H1)].
Qed.
Lemma toc_list sp n : forall id, short (parse_toc_entry n sp id) (parse_toc_entry (S n) sp id) ->
  exists v, length v = n /\ NoDup v /\ forall y, In y v -> In y (map fst (sp_objects sp)) /\
    exists m, m <= n /\ short (parse_toc_entry m sp y) (parse_toc_entry (S m) sp y).
Proof.
  induction n as [|n IH]; intros x H; [exists []; repeat split; [constructor|destruct H0..]|].
  destruct (toc_short sp n x H) as ((o & G) & y & K). destruct (IH y K) as (v & L & D & Q). exists (x :: v). split; [cbn [length]; lia|]. split.
  - constructor; [|exact D]. intros I. destruct (Q x I) as (_ & m & M & N). pose proof (toc_one _ _ _ _ H N). lia.
  - intros z [<-|I].
    + split; [|exists (S n); auto]. unfold get_object in G. apply (alookup_in exguid_eqb PackageRT.exguid_eqb_eq) in G. now apply (in_map fst) in G.
    + destruct (Q z I) as (Pz & m & M & N). split; [exact Pz|exists m; auto].
Qed.
Lemma toc_entry_enough sp f F id : length (sp_objects sp) < F -> refines (parse_toc_entry f sp id) (parse_toc_entry F sp id).
Proof.
  intros L N. destruct (Nat.le_gt_cases f F) as [M|M]; [exact (toc_entry_more f F sp id M N)|].
  destruct (parse_toc_entry F sp id) as [y|e| |] eqn:E.
  4:{ destruct (last_time (fun n => parse_toc_entry n sp id) F f) as (n & Ln & S); [lia|exact E|exact N|].
      destruct (toc_list sp n id S) as (v & <- & D & Q). assert (I : incl v (map fst (sp_objects sp))) by (intros y I; apply (Q y I)).
      apply (NoDup_incl_length D) in I. rewrite map_length in I. lia. }
  all: rewrite <- E; symmetry; apply (toc_entry_more F f sp id ltac:(lia)); rewrite E; discriminate.
Qed.
Lemma toc_enough sp f F : length (sp_objects sp) < F -> refines (parse_toc f sp) (parse_toc F sp).
Proof. intro L. unfold parse_toc. more. more; [now apply toc_entry_enough|more]. Qed.
