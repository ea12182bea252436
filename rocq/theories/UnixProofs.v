(** Paths as texts: the functions on texts do what those on components do. *)
From Coq Require Import Lia ZifyBool ZifyNat ZifyN.
From Verif Require Import Base BaseProofs Codec Package PropSet Store Props Nodes Doc Notebook Unix SpecUnix.
Local Open Scope nat_scope.

Lemma name_eqb_eq a b : name_eqb a b = true <-> a = b.
Proof.
  revert b. induction a as [|x a IH]; intros [|y b]; cbn; try (split; congruence). rewrite andb_true_iff, N.eqb_eq, IH. split; [intros (-> & ->); reflexivity|].
  intro H. injection H as -> ->. auto.
Qed.

(** ** Splitting *)
Lemma split_ne s : split_slash s <> [].
Proof. destruct s as [|c s]; cbn; [discriminate|]. destruct (split_slash s); [discriminate|]. destruct (c =? slash)%N; discriminate. Qed.
Lemma split_cons c s : split_slash (c :: s) = if (c =? slash)%N then [] :: split_slash s
  else match split_slash s with w :: ws => (c :: w) :: ws | [] => [[c]] end.
Proof. cbn [split_slash]. pose proof (split_ne s). destruct (split_slash s); [congruence|]. reflexivity. Qed.
Lemma split_mid a b : split_slash (a ++ slash :: b) = split_slash a ++ split_slash b.
Proof.
  induction a as [|c a IH]; cbn [app].
  - rewrite split_cons. cbn. reflexivity.
  - rewrite !split_cons, IH. destruct (c =? slash)%N; [reflexivity|]. pose proof (split_ne a). destruct (split_slash a); [congruence|]. reflexivity.
Qed.
Lemma split_whole p : ~ In slash p -> split_slash p = [p].
Proof.
  induction p as [|c p IH]; intro H; [reflexivity|]. rewrite split_cons, IH by (intro; apply H; now right).
  destruct (N.eqb_spec c slash); [|reflexivity]. exfalso. apply H. now left.
Qed.
Definition pieces (s : text) : path := flat_map piece (split_slash s).
Lemma pieces_mid a b : pieces (a ++ slash :: b) = pieces a ++ pieces b.
Proof. unfold pieces. now rewrite split_mid, flat_map_app. Qed.
Lemma pieces_whole p : ~ In slash p -> pieces p = piece p.
Proof. intro H. unfold pieces. rewrite split_whole by exact H. cbn. now rewrite app_nil_r. Qed.

(** ** The head of a path *)
Definition head (t : text) : path := if is_absolute t then [RootDir] else if cur_dir t then [CurDir] else [].
Lemma components_eq t : components t = head t ++ pieces (skipn (before_body t) t).
Proof.
  unfold components, head, before_body, pieces. destruct t as [|c t]; [reflexivity|]. cbn [is_absolute]. rewrite split_cons.
  destruct (N.eqb_spec c slash) as [->|NS]; [reflexivity|]. destruct t as [|d t].
  - cbn [split_slash cur_dir]. cbn [name_eqb]. destruct (N.eqb_spec c dot) as [->|ND]; cbn [andb]; [reflexivity|]. cbn [skipn]. rewrite split_cons. cbn [split_slash].
    rewrite (proj2 (N.eqb_neq c slash) NS). reflexivity.
  - cbn [cur_dir]. rewrite (split_cons d t). pose proof (split_ne t) as NE. destruct (split_slash t) as [|w ws] eqn:E; [congruence|].
    destruct (N.eqb_spec d slash) as [->|NS'].
    + cbn [name_eqb]. rewrite !andb_true_r. destruct (N.eqb_spec c dot) as [->|ND]; cbn [skipn]; rewrite ?split_cons, ?E.
      * cbn [N.eqb]. rewrite N.eqb_refl. reflexivity.
      * rewrite (proj2 (N.eqb_neq c slash) NS), N.eqb_refl. reflexivity.
    + cbn [name_eqb]. rewrite !andb_false_r. cbn [skipn]. rewrite !split_cons, E, (proj2 (N.eqb_neq c slash) NS), (proj2 (N.eqb_neq d slash) NS'). reflexivity.
Qed.

(** ** From the back *)
Lemma last_piece_ok r p q : last_piece r = (p, q) -> ~ In slash p /\ (r = p ++ slash :: q \/ r = p /\ q = []).
Proof.
  revert p q. induction r as [|c r IH]; intros p q; cbn [last_piece].
  - intro H. injection H as <- <-. split; [intros []|]. now right.
  - destruct (N.eqb_spec c slash) as [->|NS].
    + intro H. injection H as <- <-. split; [intros []|]. now left.
    + destruct (last_piece r) as [p' q'] eqn:E. intro H. injection H as <- <-. destruct (IH _ _ eq_refl) as (I & D). split.
      * intros [->|H]; [congruence|now apply I].
      * destruct D as [->|(-> & ->)]; [now left|now right].
Qed.
Lemma last_piece_short r p q c : last_piece (c :: r) = (p, q) -> length q <= length r.
Proof. intro E. apply last_piece_ok in E as (_ & [H|(H & ->)]); [|cbn; lia]. apply (f_equal (@length N)) in H. cbn [length] in H. rewrite app_length in H. cbn [length] in H. lia. Qed.
Lemma last_piece_pieces r p q : last_piece r = (p, q) -> pieces (rev r) = pieces (rev q) ++ piece (rev p).
Proof.
  intro E. apply last_piece_ok in E as (I & D). assert (J : ~ In slash (rev p)) by (intro H; apply in_rev in H; contradiction). destruct D as [->|(-> & ->)].
  - rewrite rev_app_distr. cbn [rev]. rewrite <- app_assoc. cbn [app]. rewrite pieces_mid. f_equal. now apply pieces_whole.
  - cbn. now apply pieces_whole.
Qed.
(** A beginning that ends where a piece ends. *)
Definition cut (b t : text) : Prop := b = [] \/ b = t \/ exists s, t = b ++ slash :: s.
Lemma cut_trans a b c : cut a b -> cut b c -> cut a c.
Proof.
  intros [->|[->|(s & ->)]] H; [now left|exact H|]. destruct H as [H|[<-|(s' & ->)]].
  - now apply app_eq_nil in H as (_ & H).
  - right. right. now exists s.
  - right. right. exists (s ++ slash :: s'). now rewrite <- app_assoc.
Qed.
Lemma last_piece_cut r p q : last_piece r = (p, q) -> cut (rev q) (rev r).
Proof.
  intro E. apply last_piece_ok in E as (_ & [->|(-> & ->)]); [|now left]. right. right. exists (rev p). rewrite rev_app_distr. cbn [rev]. now rewrite <- app_assoc.
Qed.
Lemma back_ok n : forall r, length r <= n ->
  match back_fuel n r with
  | Some (c, q) => pieces (rev r) = pieces (rev q) ++ [c] /\ cut (rev q) (rev r)
  | None => pieces (rev r) = []
  end.
Proof.
  induction n as [|n IH]; intros [|c r] L; cbn [back_fuel length] in *; try reflexivity; [lia|].
  destruct (last_piece (c :: r)) as [p q] eqn:E. pose proof (last_piece_pieces _ _ _ E) as P. pose proof (last_piece_cut _ _ _ E) as C. pose proof (last_piece_short _ _ _ _ E) as SH.
  assert (O : piece (rev p) = [] \/ exists x, piece (rev p) = [x]).
  { unfold piece. repeat match goal with |- context [if ?b then _ else _] => destruct b end; eauto. }
  destruct O as [O|(x & O)]; rewrite O in *.
  - rewrite app_nil_r in P. specialize (IH q ltac:(lia)). destruct (back_fuel n q) as [[y z]|]; [|now rewrite P]. destruct IH as (I1 & I2). rewrite P. split; [exact I1|eapply cut_trans; eassumption].
  - split; [exact P|exact C].
Qed.
Lemma last_piece_split r : forall p q, last_piece r = (p, q) -> ~ In slash p /\ exists s, r = p ++ s.
Proof.
  induction r as [|c r IH]; intros p q E; cbn [last_piece] in E.
  - injection E as <- <-. split; [intros []|now exists []].
  - destruct (N.eqb_spec c slash) as [->|NS]; [injection E as <- <-; split; [intros []|now eexists]|].
    destruct (last_piece r) as [p' q'] eqn:E'. injection E as <- <-. destruct (IH _ _ eq_refl) as (A & s & ->). split; [intros [J|J]; [congruence|now apply A]|now exists s].
Qed.
(** Nothing, or a piece that counts at the end. *)
Definition tail (t : text) : Prop := t = [] \/ exists u w, t = u ++ w /\ ~ In slash w /\ w <> [] /\ w <> [dot].
Lemma tail_plain u w : ~ In slash w -> w <> [] -> w <> [dot] -> plain (u ++ w).
Proof.
  intros A B C. right. intro s. destruct (exists_last B) as (m & c & ->). rewrite app_assoc. split; intro Q.
  - apply app_inj_tail in Q as (_ & ->). apply A, in_app_iff. right. now left.
  - change [slash; dot] with ([slash] ++ [dot]) in Q. rewrite app_assoc in Q. apply app_inj_tail in Q as (Q & ->). destruct m as [|x m] using rev_ind; [now apply C|].
    rewrite app_assoc in Q. apply app_inj_tail in Q as (_ & ->). apply A. rewrite !in_app_iff. left. right. now left.
Qed.
Lemma trim_ok n : forall r, length r <= n -> pieces (rev (trim_fuel n r)) = pieces (rev r) /\ cut (rev (trim_fuel n r)) (rev r) /\ tail (rev (trim_fuel n r)).
Proof.
  induction n as [|n IH]; intros [|c r] L; cbn [trim_fuel length] in *; try lia.
  - split; [reflexivity|]. split; now left.
  - split; [reflexivity|]. split; now left.
  - destruct (last_piece (c :: r)) as [p q] eqn:E. pose proof (last_piece_pieces _ _ _ E) as P. pose proof (last_piece_cut _ _ _ E) as C. pose proof (last_piece_short _ _ _ _ E) as SH.
    destruct (piece (rev p)) as [|x l] eqn:O.
    + rewrite app_nil_r in P. destruct (IH q ltac:(lia)) as (I1 & I2 & I3). split; [congruence|]. split; [eapply cut_trans; eassumption|exact I3].
    + split; [reflexivity|]. split; [right; now left|]. destruct (last_piece_split _ _ _ E) as (A & s & ->). right. exists (rev s), (rev p). rewrite rev_app_distr.
      split; [reflexivity|]. split; [now rewrite <- in_rev|]. split; intro Q; rewrite Q in O; discriminate O.
Qed.
Lemma body_back_ok b : match body_back b with
  | Some (c, q) => pieces b = pieces q ++ [c] /\ cut q b
  | None => pieces b = []
  end.
Proof.
  unfold body_back. pose proof (back_ok (length b) (rev b)) as H. rewrite rev_length, rev_involutive in H. specialize (H (le_n _)).
  destruct (back_fuel _ _) as [[c q]|]; exact H.
Qed.
Lemma trim_right_ok b : pieces (trim_right b) = pieces b /\ cut (trim_right b) b /\ tail (trim_right b).
Proof. unfold trim_right. pose proof (trim_ok (length b) (rev b)) as H. rewrite rev_length, rev_involutive in H. exact (H (le_n _)). Qed.

(** The same head, and a shorter body. *)
Lemma components_cut t b : cut b (skipn (before_body t) t) -> components (firstn (before_body t) t ++ b) = head t ++ pieces b.
Proof.
  intro C. unfold before_body, head in *. destruct (is_absolute t) eqn:A.
  - destruct t as [|c t]; [discriminate A|]. cbn [is_absolute] in A. cbn [firstn app]. apply N.eqb_eq in A. subst c. rewrite components_eq. reflexivity.
  - destruct (cur_dir t) eqn:D.
    + destruct t as [|c t]; [discriminate D|]. cbn [firstn app skipn] in *. destruct t as [|d t]; cbn [cur_dir] in D.
      * apply N.eqb_eq in D. subst c. destruct C as [->|[->|(s & C)]]; [reflexivity|reflexivity|]. now destruct b.
      * apply andb_true_iff in D as (D1 & D2). apply N.eqb_eq in D1, D2. subst c d.
        destruct b as [|x b]; [reflexivity|]. assert (x = slash) as ->.
        { destruct C as [C|[C|(s & C)]]; [discriminate C|now injection C|]. now injection C. }
        rewrite components_eq. reflexivity.
    + cbn [firstn skipn app] in *. rewrite components_eq. destruct C as [->|[->|(s & ->)]]; [reflexivity|unfold head, before_body; rewrite A, D; reflexivity|].
      unfold head, before_body. destruct b as [|x b]; [discriminate A|]. cbn [app is_absolute] in *. rewrite A. destruct b as [|y b]; cbn [app cur_dir] in *.
      * rewrite N.eqb_refl, andb_true_r in D. rewrite D. reflexivity.
      * rewrite D. reflexivity.
Qed.
Lemma head_last t : t_last t = match rev (components t) with c :: _ => Some c | [] => None end.
Proof.
  unfold t_last. rewrite components_eq. pose proof (body_back_ok (skipn (before_body t) t)) as H. destruct (body_back _) as [[c q]|].
  - destruct H as (-> & _). rewrite app_assoc, rev_app_distr. reflexivity.
  - rewrite H, app_nil_r. unfold head. destruct (is_absolute t); [reflexivity|]. destruct (cur_dir t); reflexivity.
Qed.
Lemma last_file_name t : t_file_name t = file_name (components t).
Proof. unfold t_file_name, file_name. rewrite head_last. now destruct (rev (components t)). Qed.
Lemma last_recycle t : t_recycle_bin t = is_recycle_bin (components t).
Proof. unfold t_recycle_bin, is_recycle_bin. rewrite head_last. now destruct (rev (components t)). Qed.
Lemma front_plain t : plain (firstn (before_body t) t).
Proof.
  unfold before_body. destruct (is_absolute t) eqn:A.
  - destruct t as [|x t]; [discriminate A|]. cbn [is_absolute] in A. apply N.eqb_eq in A. subst x. now left.
  - right. intro s. destruct (cur_dir t); cbn [firstn]; [|now destruct s]. destruct t as [|x t]; [now destruct s|].
    cbn [is_absolute] in A. apply N.eqb_neq in A. split; intro Q; destruct s as [|y [|z s]]; cbn in Q; congruence.
Qed.
Lemma parent_ok t : option_map components (t_parent t) = parent (components t) /\ forall b, t_parent t = Some b -> plain b.
Proof.
  unfold t_parent, parent. pose proof (body_back_ok (skipn (before_body t) t)) as H. rewrite components_eq. destruct (body_back _) as [[c q]|].
  - destruct H as (P & C). destruct (trim_right_ok q) as (T1 & T2 & T3). cbn [option_map]. rewrite components_cut by (eapply cut_trans; eassumption). rewrite T1, P, app_assoc, rev_app_distr. cbn [rev app].
    rewrite rev_involutive. split.
    + assert (NR : c <> RootDir).
      { intros ->. assert (J : In RootDir (pieces (skipn (before_body t) t))) by (rewrite P; apply in_app_iff; right; now left).
        unfold pieces in J. apply in_flat_map in J as (w & _ & J). unfold piece in J. repeat match type of J with context [if ?b then _ else _] => destruct b end; cbn in J; intuition discriminate. }
      destruct c; [congruence|reflexivity..].
    + intros b B. injection B as <-. destruct T3 as [->|(u & w & -> & T3 & T4 & T5)]; [|rewrite app_assoc; now apply tail_plain].
      rewrite app_nil_r. exact (front_plain t).
  - rewrite H, app_nil_r. unfold head. destruct (is_absolute t); [split; [reflexivity|discriminate]|]. destruct (cur_dir t); [|split; [reflexivity|discriminate]].
    split; [reflexivity|]. intros b B. injection B as <-. right. intro s. now destruct s.
Qed.

(** ** Joining *)
Lemma ends_slash t s : (forall u, t <> u ++ [slash]) -> rev t <> slash :: s.
Proof. intros H E. apply (f_equal (@rev N)) in E. rewrite rev_involutive in E. cbn [rev] in E. exact (H _ E). Qed.
Lemma pieces_slash b : pieces (slash :: b) = pieces b.
Proof. exact (pieces_mid [] b). Qed.
Lemma components_mid a b : components (a ++ slash :: b) = components (a ++ [slash]) ++ pieces b.
Proof.
  rewrite !components_eq. unfold head, before_body. destruct a as [|x [|y a]]; cbn [app is_absolute cur_dir].
  - reflexivity.
  - destruct (x =? slash)%N; [cbn [skipn app]; now rewrite !pieces_slash|]. rewrite N.eqb_refl. destruct (x =? dot)%N; cbn [andb skipn app].
    + now rewrite !pieces_slash.
    + change (x :: slash :: b) with ([x] ++ slash :: b). change [x; slash] with ([x] ++ [slash]). now rewrite (pieces_mid [x] b), (pieces_mid [x] []), app_nil_r.
  - destruct (x =? slash)%N; [cbn [skipn app]; pose proof (pieces_mid (y :: a) b) as Q; pose proof (pieces_mid (y :: a) []) as Q'; cbn [app] in Q, Q'; rewrite Q, Q', app_nil_r; reflexivity|].
    destruct ((x =? dot)%N && (y =? slash)%N); cbn [skipn app].
    + pose proof (pieces_mid (y :: a) b) as Q; pose proof (pieces_mid (y :: a) []) as Q'; cbn [app] in Q, Q'; rewrite Q, Q', app_nil_r; reflexivity.
    + pose proof (pieces_mid (x :: y :: a) b) as Q; pose proof (pieces_mid (x :: y :: a) []) as Q'; cbn [app] in Q, Q'; rewrite Q, Q', app_nil_r; reflexivity.
Qed.
Lemma components_slash t : t <> [] -> components (t ++ [slash]) = components t.
Proof.
  intro NE. rewrite !components_eq. assert (Z : forall u, pieces (u ++ [slash]) = pieces u) by (intro u; rewrite pieces_mid; apply app_nil_r).
  unfold head, before_body. destruct t as [|x [|y a]]; cbn [app is_absolute cur_dir]; [congruence| |].
  - destruct (x =? slash)%N; [reflexivity|]. rewrite N.eqb_refl. destruct (x =? dot)%N; cbn [andb skipn app]; [reflexivity|]. exact (Z [x]).
  - destruct (x =? slash)%N; [cbn [skipn app]; f_equal; exact (Z (y :: a))|].
    destruct ((x =? dot)%N && (y =? slash)%N); cbn [skipn app]; [f_equal; exact (Z (y :: a))|exact (Z (x :: y :: a))].
Qed.
Lemma push_ok t s : is_absolute s = false -> cur_dir s = false -> components (t_push t s) = components t ++ components s.
Proof.
  intros A D. unfold t_push. rewrite A. assert (CS : components s = pieces s) by (rewrite components_eq; unfold head, before_body; rewrite A, D; reflexivity).
  destruct (rev t) as [|c r] eqn:E; apply (f_equal (@rev N)) in E; rewrite rev_involutive in E; cbn [rev] in E.
  - subst t. reflexivity.
  - rewrite CS. destruct (N.eqb_spec c slash) as [->|NS]; subst t.
    + rewrite <- app_assoc. cbn [app]. apply components_mid.
    + rewrite components_mid. now rewrite components_slash by (now destruct (rev r)).
Qed.
Lemma push_plain t u w : is_absolute (u ++ w) = false -> ~ In slash w -> w <> [] -> w <> [dot] -> plain (t_push t (u ++ w)).
Proof.
  intros A NE H D. unfold t_push. rewrite A. destruct (rev t) as [|c r]; [now apply tail_plain|]. destruct (c =? slash)%N; [rewrite app_assoc; now apply tail_plain|].
  change (slash :: u ++ w) with ((slash :: u) ++ w). rewrite app_assoc. now apply tail_plain.
Qed.

(** ** Names *)
Lemma split_clean s w : In w (split_slash s) -> ~ In slash w.
Proof.
  revert w. induction s as [|c s IH]; intro w; rewrite ?split_cons; [intros [<-|[]] []|].
  pose proof (split_ne s). destruct (split_slash s) as [|v vs]; [congruence|]. destruct (N.eqb_spec c slash) as [->|NS].
  - intros [<-|I]; [intros []|now apply IH].
  - intros [<-|I]; [|apply IH; now right]. intros [J|J]; [congruence|]. exact (IH v (or_introl eq_refl) J).
Qed.
Lemma piece_normal w n : In (Normal n) (piece w) -> n = w /\ n <> [] /\ n <> [dot] /\ n <> [dot; dot].
Proof.
  unfold piece. destruct (name_eqb w []) eqn:A; [intros []|]. destruct (name_eqb w [dot]) eqn:B; [intros []|]. destruct (name_eqb w [dot; dot]) eqn:C; [intros [H|[]]; discriminate H|].
  intros [H|[]]. injection H as <-. repeat split; intro Q; apply name_eqb_eq in Q; congruence.
Qed.
Lemma components_proper s n : In (Normal n) (components s) -> proper_name n.
Proof.
  rewrite components_eq, in_app_iff. intros [H|H].
  - unfold head in H. destruct (is_absolute s); [destruct H as [H|[]]; discriminate H|]. destruct (cur_dir s); [destruct H as [H|[]]; discriminate H|]. destruct H.
  - unfold pieces in H. apply in_flat_map in H as (w & I & H). apply piece_normal in H as (-> & H). split; [now apply split_clean in I|exact H].
Qed.
Lemma proper_piece n : proper_name n -> pieces n = [Normal n].
Proof.
  intros (A & B & C & D). rewrite pieces_whole by exact A. unfold piece. pose proof (name_eqb_eq n []). pose proof (name_eqb_eq n [dot]). pose proof (name_eqb_eq n [dot; dot]).
  destruct (name_eqb n []); [exfalso; tauto|]. destruct (name_eqb n [dot]); [exfalso; tauto|]. destruct (name_eqb n [dot; dot]); [exfalso; tauto|]. reflexivity.
Qed.
Lemma proper_start n s : proper_name n -> is_absolute (n ++ s) = false /\ (s = [] \/ (exists u, s = slash :: u) -> cur_dir (n ++ s) = false).
Proof.
  intros (A & B & C & D). destruct n as [|x n]; [congruence|]. cbn [app is_absolute]. assert (NS : x <> slash) by (intros ->; apply A; now left). split; [now apply N.eqb_neq|].
  intro H. destruct n as [|y n]; cbn [app].
  - assert (x <> dot) by congruence. apply N.eqb_neq in H0. destruct H as [->|(u & ->)]; cbn [cur_dir]; now rewrite H0.
  - cbn [cur_dir]. assert (y <> slash) by (intros ->; apply A; right; now left). apply N.eqb_neq in H0. now rewrite H0, andb_false_r.
Qed.
Lemma proper_end n : proper_name n -> forall u, n <> u ++ [slash].
Proof. intros (A & _) u ->. apply A, in_app_iff. right. now left. Qed.
Lemma joined_cons n l : l <> [] -> joined (n :: l) = n ++ slash :: joined l.
Proof. destruct l; [congruence|reflexivity]. Qed.
Lemma joined_snoc l n : l <> [] -> joined (l ++ [n]) = joined l ++ slash :: n.
Proof.
  induction l as [|m l IH]; [congruence|]. intros _. cbn [app]. destruct l as [|m' l]; [reflexivity|]. rewrite joined_cons by discriminate. rewrite (joined_cons m) by discriminate.
  rewrite IH by discriminate. now rewrite <- app_assoc.
Qed.
Lemma joined_facts l : Forall proper_name l -> is_absolute (joined l) = false /\ cur_dir (joined l) = false /\ (forall u, joined l <> u ++ [slash]) /\
  (joined l = [] -> l = []) /\ pieces (joined l) = map Normal l.
Proof.
  induction 1 as [|n l P F IH]; [repeat split; auto; intros u H; now destruct u|]. destruct l as [|m l].
  - cbn [joined map]. destruct (proper_start n [] P) as (A & D). rewrite app_nil_r in A, D. refine (conj A (conj (D (or_introl eq_refl)) (conj (proper_end n P) (conj _ (proper_piece n P))))).
    intros ->. destruct P as (_ & P & _). congruence.
  - destruct IH as (I1 & I2 & I3 & I4 & I5). rewrite joined_cons by discriminate. destruct (proper_start n (slash :: joined (m :: l)) P) as (A & D).
    refine (conj A (conj (D _) (conj _ (conj _ _)))).
    + right. now eexists.
    + intros u Q. apply (f_equal (@rev N)) in Q. rewrite !rev_app_distr in Q. cbn [rev app] in Q.
      destruct (rev (joined (m :: l))) as [|c r] eqn:E; [apply (f_equal (@rev N)) in E; rewrite rev_involutive in E; apply I4 in E; discriminate E|].
      injection Q as -> _. exact (ends_slash _ _ I3 E).
    + intro Q. apply app_eq_nil in Q as (_ & Q). discriminate Q.
    + rewrite pieces_mid, I5, (proper_piece n P). reflexivity.
Qed.
Lemma joined_components l : Forall proper_name l -> components (joined l) = map Normal l.
Proof. intro F. destruct (joined_facts l F) as (A & D & _ & _ & P). rewrite components_eq. unfold head, before_body. now rewrite A, D. Qed.
Lemma push_joined l n : Forall proper_name l -> proper_name n -> t_push (joined l) n = joined (l ++ [n]).
Proof.
  intros F P. unfold t_push. destruct (proper_start n [] P) as (A & _). rewrite app_nil_r in A. rewrite A. destruct (joined_facts l F) as (_ & _ & E & Z & _).
  destruct (rev (joined l)) as [|c r] eqn:R; [apply (f_equal (@rev N)) in R; rewrite rev_involutive in R; apply Z in R; now subst l|].
  destruct (N.eqb_spec c slash) as [->|_]; [exfalso; exact (ends_slash _ _ E R)|]. rewrite joined_snoc; [reflexivity|]. intros ->. discriminate R.
Qed.

Lemma push_names t l : l <> [] -> Forall proper_name l -> plain (t_push t (joined l)).
Proof.
  intros NE F. destruct (joined_facts l F) as (A & _). destruct (exists_last NE) as (m & n & ->). apply Forall_app in F as (_ & F). assert (Pn : proper_name n) by (inversion F; assumption). destruct Pn as (P1 & P2 & P3 & _).
  destruct m as [|x m]; [exact (push_plain t [] n A P1 P2 P3)|]. rewrite joined_snoc in * by discriminate. change (slash :: n) with ([slash] ++ n) in *. rewrite app_assoc in *. now apply push_plain.
Qed.

(** ** Entries *)
Definition alike {A B} (R : A -> B -> Prop) (x : res A) (y : res B) : Prop :=
  match x, y with
  | Ok a, Ok b => R a b
  | Err e, Err e' => e = e'
  | Panic, Panic | OutOfFuel, OutOfFuel => True
  | _, _ => False
  end.
Lemma sanitize_ok f cs : (forall n, In (Normal n) cs -> proper_name n) -> forall l, Forall proper_name l ->
  alike (fun t p => exists l', Forall proper_name l' /\ p = map Normal l' /\ t = joined (l ++ l')) (t_sanitize f (joined l) cs) (sanitize_components f cs).
Proof.
  induction cs as [|c cs IH]; intros P l F; cbn [t_sanitize sanitize_components].
  - exists []. now rewrite app_nil_r.
  - assert (P' : forall n, In (Normal n) cs -> proper_name n) by (intros n I; apply P; now right). destruct c as [| | |n]; try reflexivity; [now apply IH|].
    destruct (name_eqb (f n) n); [|reflexivity]. pose proof (P n (or_introl eq_refl)) as Pn. rewrite push_joined by assumption.
    assert (F' : Forall proper_name (l ++ [n])) by (apply Forall_app; auto). specialize (IH P' _ F').
    destruct (t_sanitize f (joined (l ++ [n])) cs) as [t| | |], (sanitize_components f cs) as [p| | |]; cbn [rbind alike] in *; try contradiction; auto.
    destruct IH as (l' & H1 & -> & ->). exists (n :: l'). split; [now constructor|]. split; [reflexivity|]. now rewrite <- app_assoc.
Qed.
Lemma push_below base l : Forall proper_name l -> below base l (t_push base (joined l)).
Proof.
  intro F. destruct (joined_facts l F) as (A & _). unfold t_push. rewrite A. unfold below. destruct (rev base) as [|c r] eqn:R; apply (f_equal (@rev N)) in R; rewrite rev_involutive in R; cbn [rev] in R.
  - subst base. exists []. split; [reflexivity|]. left. auto.
  - destruct (N.eqb_spec c slash) as [->|NS].
    + exists []. split; [reflexivity|]. left. split; [reflexivity|]. right. eauto.
    + exists [slash]. split; [reflexivity|]. right. split; [reflexivity|]. split; [intro Q; subst base; now destruct (rev r)|]. intros s Q. subst base. apply app_inj_tail in Q as (_ & Q). congruence.
Qed.
Lemma resolve_ok f T F base e : takes_apart T F -> plain base ->
  alike (fun t p => components t = p /\ plain t /\ exists l, l <> [] /\ Forall proper_name l /\ below base l t)
    (t_resolve f T base e) (resolve_entry_path f F (components base) e).
Proof.
  intros TA PB. unfold t_resolve, resolve_entry_path. destruct (is_absolute e); [reflexivity|].
  pose proof (sanitize_ok f (components e) (components_proper e) [] (Forall_nil _)) as S0. cbn [joined app] in S0.
  destruct (t_sanitize f [] (components e)) as [t| | |], (sanitize_components f (components e)) as [p| | |]; cbn [rbind alike] in *; try contradiction; auto.
  destruct S0 as (l & Fl & -> & ->). destruct (joined_facts l Fl) as (A & D & E & Z & _). destruct l as [|n l]; [reflexivity|].
  destruct (joined (n :: l)) as [|x s] eqn:J; [specialize (Z eq_refl); discriminate Z|]. cbn [map]. rewrite <- J in *. clear x s J.
  set (t := t_push base (joined (n :: l))). change (Normal n :: map Normal l) with (map Normal (n :: l)).
  assert (CT : components t = components base ++ map Normal (n :: l)) by (unfold t; rewrite push_ok by assumption; now rewrite joined_components by exact Fl).
  assert (PT : plain t) by (apply push_names; [discriminate|exact Fl]).
  assert (G : components t = components base ++ map Normal (n :: l) /\ plain t /\ exists l, l <> [] /\ Forall proper_name l /\ below base l t).
  { split; [exact CT|]. split; [exact PT|]. exists (n :: l). split; [discriminate|]. split; [exact Fl|]. now apply push_below. }
  rewrite <- CT, <- (ta_exists _ _ TA t PT). destruct (tfs_exists T t); [|split; [reflexivity|exact (proj2 G)]].
  rewrite <- (ta_canonicalize _ _ TA base PB), <- (ta_canonicalize _ _ TA t PT).
  destruct (tfs_canonicalize T base) as [b|]; cbn [option_map ok_or rbind alike]; [|reflexivity]. destruct (tfs_canonicalize T t) as [u|]; cbn [option_map ok_or rbind alike]; [|reflexivity].
  destruct (starts_with _ _); [|reflexivity]. cbn [alike]. split; [reflexivity|exact (proj2 G)].
Qed.

(** ** Sections and notebooks *)
Lemma section_ok h fuel T F t : takes_apart T F -> plain t -> t_parse_section_file h fuel T t = parse_section_file h fuel F (components t).
Proof.
  intros TA P. unfold t_parse_section_file, parse_section_file. rewrite (ta_read _ _ TA t P). destruct (ok_or IO _) as [d| | |]; cbn [rbind]; try reflexivity.
  destruct (open_store h fuel d) as [st| | |]; cbn [rbind]; try reflexivity. destruct (_ =? _)%N; [|reflexivity]. now rewrite last_file_name.
Qed.
Lemma find_toc_ok dir l : (forall n, In (Some n) l -> proper_name n) ->
  alike (fun t n => components t = components dir ++ [Normal n] /\ plain t) (t_find_toc dir l) (find_toc l).
Proof.
  induction l as [|[n|] l IH]; intro P; cbn [t_find_toc find_toc]; try reflexivity.
  specialize (IH (fun n I => P n (or_intror I))). pose proof (P n (or_introl eq_refl)) as Pn.
  destruct (joined_facts [n] (Forall_cons _ Pn (Forall_nil _))) as (A & D & E & Z & _). cbn [joined] in *.
  assert (C : components (t_push dir n) = components dir ++ [Normal n]) by (rewrite push_ok by assumption; f_equal; exact (joined_components [n] (Forall_cons _ Pn (Forall_nil _)))).
  unfold t_extension. rewrite last_file_name, C. unfold file_name. rewrite rev_app_distr. cbn [rev app].
  destruct (extension n) as [e|]; [|exact IH]. destruct (name_eqb e onetoc2); [|exact IH]. cbn [alike]. split; [exact C|]. apply (push_names dir [n]); [discriminate|exact (Forall_cons _ Pn (Forall_nil _))].
Qed.
Lemma map_alike {A B C} (R : B -> C -> Prop) (f : A -> res B) (g : A -> res C) l : (forall a, alike R (f a) (g a)) -> alike (Forall2 R) (map_res f l) (map_res g l).
Proof.
  intro H. induction l as [|a l IH]; cbn [map_res]; [constructor|]. specialize (H a). destruct (f a), (g a); cbn [rbind alike] in *; try contradiction; auto.
  destruct (map_res f l), (map_res g l); cbn [rbind alike] in *; try contradiction; auto.
Qed.
Definition stands (t : text) (p : path) : Prop := components t = p /\ plain t.
Lemma filter_stands (f : text -> bool) g l m : (forall t, plain t -> f t = g (components t)) -> Forall2 stands l m -> Forall2 stands (filter f l) (filter g m).
Proof.
  intros H. induction 1 as [|t p l m (C & P) _ IH]; cbn [filter]; [constructor|]. rewrite (H t P), C. destruct (g p); [|exact IH]. constructor; [now split|exact IH].
Qed.
Lemma map_stands {A} (f : text -> res A) g l m : (forall t, plain t -> f t = g (components t)) -> Forall2 stands l m -> map_res f l = map_res g m.
Proof. intros H. induction 1 as [|t p l m (C & P) _ IH]; cbn [map_res]; [reflexivity|]. now rewrite (H t P), C, IH. Qed.
Lemma notebook_ok f h fuel T F : takes_apart T F -> forall depth t, plain t -> t_parse_notebook f h depth fuel T t = parse_notebook f h depth fuel F (components t).
Proof.
  intro TA. induction depth as [|d IH]; intros t P; cbn [t_parse_notebook parse_notebook]; [reflexivity|].
  rewrite (ta_read _ _ TA t P). destruct (ok_or IO _) as [data| | |]; cbn [rbind]; try reflexivity.
  destruct (open_store h fuel data) as [st| | |]; cbn [rbind]; try reflexivity. destruct (_ =? _)%N; [|reflexivity].
  destruct (parent_ok t) as (PA & PP). rewrite <- PA. destruct (t_parent t) as [base|]; cbn [option_map ok_or rbind]; [|reflexivity]. specialize (PP base eq_refl).
  destruct (parse_toc _ _) as [[names color]| | |]; cbn [rbind]; try reflexivity.
  pose proof (map_alike stands (t_resolve f T base) (resolve_entry_path f F (components base)) names) as M.
  assert (M' := M ltac:(intro e; pose proof (resolve_ok f T F base e TA PP) as R; destruct (t_resolve f T base e), (resolve_entry_path f F (components base) e); cbn [alike] in *; try contradiction; auto; destruct R as (R1 & R2 & _); now split)).
  destruct (map_res (t_resolve f T base) names) as [ts| | |], (map_res (resolve_entry_path f F (components base)) names) as [ps| | |]; cbn [rbind alike] in *; try contradiction; subst; try reflexivity.
  erewrite map_stands; [reflexivity| |apply filter_stands; [|apply filter_stands; [|exact M']]].
  - intros u U. cbn beta. rewrite (ta_is_file _ _ TA u U). destruct (fs_is_file F (components u)); [now rewrite (section_ok h fuel T F u TA U)|].
    rewrite last_file_name. destruct (ok_or InvalidPath _) as [dn| | |]; cbn [rbind]; try reflexivity.
    rewrite <- (ta_read_dir _ _ TA u U). destruct (tfs_read_dir T u) as [files|] eqn:RD; cbn [ok_or rbind]; [|reflexivity].
    pose proof (find_toc_ok u files (fun n I => ta_names _ _ TA u files n RD I)) as FT.
    destruct (t_find_toc u files) as [v| | |], (find_toc files) as [n| | |]; cbn [rbind alike] in *; try contradiction; subst; try reflexivity.
    destruct FT as (V1 & V2). now rewrite (IH v V2), V1.
  - intros u U. now rewrite last_recycle.
  - intros u U. exact (ta_exists _ _ TA u U).
Qed.

(** ** What the texts look like, whatever the operating system does *)
Lemma sanitize_names f cs : (forall n, In (Normal n) cs -> proper_name n) -> forall l t, Forall proper_name l -> t_sanitize f (joined l) cs = Ok t ->
  exists l', Forall proper_name l' /\ Forall (fun n => f n = n) l' /\ t = joined (l ++ l') /\ Forall2 eq (map Normal l') (filter (fun c => negb (component_eqb c CurDir)) cs).
Proof.
  induction cs as [|c cs IH]; intros P l t F; cbn [t_sanitize].
  - intro H. injection H as <-. exists []. rewrite app_nil_r. repeat split; constructor.
  - assert (P' : forall n, In (Normal n) cs -> proper_name n) by (intros n I; apply P; now right). destruct c as [| | |n]; try discriminate; [exact (IH P' l t F)|].
    destruct (name_eqb (f n) n) eqn:Q; [|discriminate]. apply name_eqb_eq in Q. pose proof (P n (or_introl eq_refl)) as Pn. rewrite push_joined by assumption. intro H.
    assert (F' : Forall proper_name (l ++ [n])) by (apply Forall_app; auto). destruct (IH P' _ t F' H) as (l' & H1 & H2 & H3 & H4).
    exists (n :: l'). split; [now constructor|]. split; [now constructor|]. split; [now rewrite H3, <- app_assoc|]. cbn [map filter component_eqb negb]. now constructor.
Qed.
Lemma resolve_names f T base e t : t_resolve f T base e = Ok t ->
  exists l, l <> [] /\ Forall proper_name l /\ Forall (fun n => f n = n) l /\ below base l t /\
    map Normal l = filter (fun c => negb (component_eqb c CurDir)) (components e) /\
    (tfs_exists T t = true -> exists b c, tfs_canonicalize T base = Some b /\ tfs_canonicalize T t = Some c /\ starts_with (components c) (components b) = true).
Proof.
  unfold t_resolve. destruct (is_absolute e); [discriminate|]. destruct (t_sanitize f [] (components e)) as [s| | |] eqn:E; cbn [rbind]; try discriminate.
  destruct (sanitize_names f (components e) (components_proper e) [] s (Forall_nil _) E) as (l & L1 & L2 & -> & L3). cbn [app] in *. intro H.
  destruct (joined_facts l L1) as (_ & _ & _ & Z & _). destruct (joined l) as [|x s] eqn:J; [discriminate H|]. exists l. rewrite <- J in *.
  assert (NE : l <> []) by (intros ->; discriminate J). assert (EQ : map Normal l = filter (fun c => negb (component_eqb c CurDir)) (components e)).
  { clear - L3. induction L3; congruence. }
  destruct (tfs_exists T (t_push base (joined l))) eqn:X.
  - destruct (tfs_canonicalize T base) as [b|] eqn:B; cbn [ok_or rbind] in H; [|discriminate H]. destruct (tfs_canonicalize T _) as [c|] eqn:C in H; cbn [ok_or rbind] in H; [|discriminate H].
    destruct (starts_with _ _) eqn:SW in H; [|discriminate H]. injection H as <-. pose proof (push_below base l L1). firstorder eauto.
  - injection H as <-. pose proof (push_below base l L1). repeat (split; [assumption|]). congruence.
Qed.
Lemma last_piece_front r : forall p q, last_piece r = (p, q) -> exists s, r = s ++ q.
Proof.
  induction r as [|c r IH]; intros p q E; cbn [last_piece] in E; [injection E as <- <-; now exists []|].
  destruct (c =? slash)%N; [injection E as <- <-; now exists [c]|]. destruct (last_piece r) as [p' q']. injection E as <- <-. destruct (IH _ _ eq_refl) as (s & ->). now exists (c :: s).
Qed.
Lemma back_front n : forall r c q, back_fuel n r = Some (c, q) -> exists s, r = s ++ q.
Proof.
  induction n as [|n IH]; intros [|x r] c q H; cbn [back_fuel] in H; try discriminate H. destruct (last_piece (x :: r)) as [p q'] eqn:E. destruct (last_piece_front _ _ _ E) as (s & ->).
  destruct (piece (rev p)); [|injection H as _ <-; now exists s]. destruct (IH _ _ _ H) as (s' & ->). exists (s ++ s'). now rewrite <- app_assoc.
Qed.
Lemma trim_front n : forall r, exists s, r = s ++ trim_fuel n r.
Proof.
  induction n as [|n IH]; intros [|x r]; cbn [trim_fuel]; try (eexists; symmetry; apply app_nil_r). destruct (last_piece (x :: r)) as [p q] eqn:E. destruct (last_piece_front _ _ _ E) as (s & ->).
  destruct (piece (rev p)); [|now exists []]. destruct (IH q) as (s' & H). exists (s ++ s'). rewrite <- app_assoc. now rewrite <- H.
Qed.
Lemma parent_front t b : t_parent t = Some b -> exists s, t = b ++ s.
Proof.
  unfold t_parent. destruct (body_back _) as [[c q]|] eqn:E.
  - intro H. injection H as <-. unfold body_back in E. destruct (back_fuel _ _) as [[c' q']|] eqn:B; [|discriminate E]. injection E as _ <-. destruct (back_front _ _ _ _ B) as (s & H).
    apply (f_equal (@rev N)) in H. rewrite rev_involutive, rev_app_distr in H. destruct (trim_front (length (rev q')) (rev (rev q'))) as (s' & H'). rewrite rev_involutive in H' at 1.
    exists (rev s' ++ rev s). unfold trim_right. apply (f_equal (@rev N)) in H'. rewrite rev_app_distr in H'. rewrite <- app_assoc, (app_assoc (rev _)), <- H', <- H. symmetry. apply firstn_skipn.
  - destruct (is_absolute t); [discriminate|]. destruct (cur_dir t); [|discriminate]. intro H. injection H as <-. now exists t.
Qed.
Lemma notebook_same f h fuel T F depth t t' : takes_apart T F -> plain t -> plain t' -> components t = components t' ->
  t_parse_notebook f h depth fuel T t = t_parse_notebook f h depth fuel T t'.
Proof. intros TA P P' C. rewrite !(notebook_ok f h fuel T F TA) by assumption. now rewrite C. Qed.
Lemma section_same h fuel T F t t' : takes_apart T F -> plain t -> plain t' -> components t = components t' ->
  t_parse_section_file h fuel T t = t_parse_section_file h fuel T t'.
Proof. intros TA P P' C. rewrite !(section_ok h fuel T F) by assumption. now rewrite C. Qed.
