(** A check, used only in [Example]s, that lists what is looked at in a simple section
    and that nothing of it is at fault. *)
From Coq Require Import Lia Relations.
From Verif Require Import Base BaseProofs Codec Package PropSet PropIds Store Shapes Props Nodes Doc Notebook
  SpecCodec SpecStore SpecValues SpecNodes SpecKinds NodesProofs NodesProofs2 NodesProofs3 SpecDoc DocProofs DocProofs2
  DocProofs3 DocProofs5 DocProofs6 SpecCause CauseProofs CauseProofs2 CauseProofs3 SpecFate FateProofs FateProofs2.

Definition seen := (exguid * role)%type.
Definition all_as (r : role) (l : list exguid) : list seen := map (fun i => (i, r)) l.
Definition when_ok {A} (r : res A) (f : A -> list seen) : option (list seen) :=
  match r with Ok a => Some (f a) | _ => None end.
(** Where a faultless object leads to; nothing for kinds that are not needed here. *)
Definition onward (o : object) (i : exguid) (r : role) : option (list seen) :=
  match r with
  | R_section_meta => when_ok (section_metadata_parse o) (fun _ => [])
  | R_section => when_ok (section_node_parse o) (fun d => all_as R_series (sn_page_series d))
  | R_series => when_ok (page_series_node_parse o) (fun _ => [])
  | R_page_meta => when_ok (page_metadata_parse o) (fun _ => [])
  | R_manifest => when_ok (page_manifest_parse o) (fun p => [(p, R_page)])
  | R_page => when_ok (page_node_parse o) (fun d =>
      match pd_title d with Some t => [(t, R_title)] | None => [] end ++ all_as R_page_content (pd_content d))
  | R_outline => when_ok (outline_node_parse o) (fun d => all_as R_item (ou_children d))
  | R_group => when_ok (outline_group_node_parse o) (fun d => all_as R_item (gr_children d))
  | R_element => when_ok (outline_element_node_parse o) (fun d =>
      all_as R_item (oe_children d) ++ all_as R_content (oe_contents d) ++ all_as R_list (oe_list_contents d))
  | R_list => match number_list_parse o with Ok _ | Panic => Some [] | _ => None end
  | R_page_content => if ob_jcid o =? 0x0006000C then Some [(i, R_outline)] else None
  | R_item => if ob_jcid o =? 0x00060019 then Some [(i, R_group)]
              else if ob_jcid o =? 0x0006000D then Some [(i, R_element)] else None
  | _ => None
  end.
Definition goes (sp : space) (x : seen) : option (list seen) :=
  match get_object sp (fst x) with Some o => onward o (fst x) (snd x) | None => None end.
Lemma all_as_in r l i : In i l -> In (i, r) (all_as r l).
Proof. exact (in_map (fun i => (i, r)) l i). Qed.
Lemma when_some {A} (r : res A) f l : when_ok r f = Some l -> exists a, r = Ok a /\ l = f a.
Proof. destruct r; cbn; intros [= <-]; eauto. Qed.

Ltac did L H := let d' := fresh "d" in let D' := fresh "D" in apply when_some in H as (d' & D' & ->); apply L in D'.
Ltac one L := match type of L with forall o d, _ = Ok d <-> ?R o d =>
    match goal with X : R ?o ?a, Y : R ?o ?b |- _ => pose proof (node_fun _ _ L _ _ _ X Y); subst b end end.
Lemma onward_step sp i r j r' l : goes sp (i, r) = Some l -> step sp (i, r) (j, r') -> In (j, r') l.
Proof.
  unfold goes. cbn [fst snd]. intros H (o & G & S). cbn [fst snd] in *. rewrite G in H.
  destruct S as [L|(-> & K)].
  - destruct L; cbn [onward] in H; try discriminate H.
    + did section_node_ok H. one section_node_ok. now apply all_as_in.
    + did manifest_ok H. one manifest_ok. now left.
    + did page_ok H. one page_ok. rewrite H1. now left.
    + did page_ok H. one page_ok. apply in_or_app. right. now apply all_as_in.
    + did outline_ok H. one outline_ok. now apply all_as_in.
    + did group_ok H. one group_ok. now apply all_as_in.
    + did element_ok H. one element_ok. apply in_or_app. left. now apply all_as_in.
    + did element_ok H. one element_ok. apply in_or_app. right. apply in_or_app. left. now apply all_as_in.
    + did element_ok H. one element_ok. apply in_or_app. right. apply in_or_app. right. now apply all_as_in.
  - destruct r; cbn in K; try (exfalso; exact K); cbn [onward] in H; try discriminate H.
    + destruct (ob_jcid o =? 0x0006000C) eqn:E; [|discriminate H]. injection H as <-. apply N.eqb_eq in E.
      repeat (destruct K as [K|K]; [injection K as K <-; first [now left|exfalso; congruence]|]). destruct K.
    + destruct (ob_jcid o =? 0x00060019) eqn:E; [injection H as <-|destruct (ob_jcid o =? 0x0006000D) eqn:E2; [injection H as <-|discriminate H]];
        rewrite ?N.eqb_eq in *;
        repeat (destruct K as [K|K]; [injection K as K <-; first [now left|exfalso; congruence]|]); destruct K.
Qed.
Lemma onward_right sp i r l o e : goes sp (i, r) = Some l -> get_object sp i = Some o -> ~ wrong sp r o e.
Proof.
  unfold goes. cbn [fst snd]. intros H G. rewrite G in H.
  assert (F : fits r o \/ r = R_list /\ short_format o).
  { destruct r; cbn [onward] in H; try discriminate H; cbn [fits].
    1: left; did section_meta_ok H; eauto.
    1: left; did section_node_ok H; eauto.
    1: left; did series_ok H; eauto.
    1: left; did page_meta_ok H; eauto.
    1: left; did manifest_ok H; eauto.
    1: left; did page_ok H; eauto.
    1: left; destruct (ob_jcid o =? 0x0006000C) eqn:E; [|discriminate H]; apply N.eqb_eq in E; rewrite E; cbn; tauto.
    1: left; did outline_ok H; eauto.
    1: left; destruct (ob_jcid o =? 0x00060019) eqn:E;
         [|destruct (ob_jcid o =? 0x0006000D) eqn:E2; [|discriminate H]]; rewrite ?N.eqb_eq in *; cbn; auto.
    1: left; did group_ok H; eauto.
    1: left; did element_ok H; eauto.
    destruct (number_list_parse o) as [d|x| |] eqn:E; try discriminate H.
    - left. apply list_ok in E. eauto.
    - right. split; [reflexivity|]. now apply list_panics. }
  assert (T : r <> R_text /\ r <> R_stroke) by (split; intros ->; discriminate H).
  intros W. destruct W as [I N|I N N'|I S|I S|d p g R D P I N|R N|run style R U T' N|run style R U T' N|run style R U T' N|run style x R U T' E B N|run style t R U T' B N1 N2];
    try (destruct T; congruence).
  - destruct F as [F|(-> & _)]; [exact (N F)|]. cbn in I. repeat (destruct I as [I|I]; [discriminate I|]). exact I.
  - destruct F as [F|(-> & S)]; [exact (N F)|exact (N' eq_refl S)].
  - destruct F as [F|(-> & _)]; [|cbn in I; repeat (destruct I as [I|I]; [discriminate I|]); exact I].
    destruct I as [<-|[<-|[<-|[]]]]; cbn in F; destruct F as (d & D).
    + destruct D as (_ & _ & Q & _). exact (uuid_long _ _ Q S).
    + destruct D as (_ & Q & _). exact (uuid_long _ _ Q S).
    + destruct D as (_ & Q & _). exact (uuid_long _ _ Q S).
  - destruct F as [F|(-> & _)]; [|cbn in I; repeat (destruct I as [I|I]; [discriminate I|]); exact I].
    destruct I as [<-|[<-|[]]]; cbn in F; destruct F as (d & D); unfold outline_object, cell_object in D;
        repeat match goal with D : _ /\ _ |- _ => destruct D end;
        match goal with Q : required o 0x1C001C12 indents _ |- _ => exact (indents_long _ _ Q S) end.
Qed.

(** The list [l] is closed under going on. *)
Definition role_code (r : role) : N :=
  match r with
  | R_section_meta => 0 | R_section => 1 | R_series => 2 | R_page_meta => 3 | R_manifest => 4 | R_page => 5 | R_title => 6
  | R_page_content => 7 | R_outline => 8 | R_item => 9 | R_group => 10 | R_element => 11 | R_content => 12 | R_list => 13
  | R_text => 14 | R_style => 15 | R_tag => 16 | R_image => 17 | R_picture => 18 | R_iframe => 19 | R_file => 20 | R_file_data => 21
  | R_ink => 22 | R_drawing => 23 | R_stroke => 24 | R_pen => 25 | R_table => 26 | R_row => 27 | R_cell => 28
  end.
Lemma role_code_inj r r' : role_code r = role_code r' -> r = r'.
Proof. destruct r, r'; cbn; intros H; first [reflexivity|discriminate H]. Qed.
Definition mem (l : list seen) (x : seen) : bool :=
  existsb (fun y => exguid_eqb (fst y) (fst x) && (role_code (snd y) =? role_code (snd x))) l.
Lemma mem_in l x : mem l x = true -> In x l.
Proof.
  intros H. apply existsb_exists in H as ([i r] & I & H). apply andb_prop in H as (H1 & H2).
  apply PackageRT.exguid_eqb_eq in H1. apply N.eqb_eq, role_code_inj in H2. destruct x. cbn in *. now subst.
Qed.
Definition closed (sp : space) (l : list seen) : bool :=
  forallb (fun x => match goes sp x with Some m => forallb (mem l) m | None => false end) l.
Lemma closed_goes sp l x : closed sp l = true -> In x l -> exists m, goes sp x = Some m.
Proof.
  intros H I. apply (proj1 (forallb_forall _ _) H) in I. destruct (goes sp x) as [m|]; [eauto|discriminate I].
Qed.
Lemma closed_step sp l x y : closed sp l = true -> In x l -> step sp x y -> In y l.
Proof.
  intros H I S. apply (proj1 (forallb_forall _ _) H) in I. destruct (goes sp x) as [m|] eqn:E; [|discriminate I].
  destruct x as [i r], y as [j r']. apply mem_in. apply (proj1 (forallb_forall _ _) I). exact (onward_step sp i r j r' m E S).
Qed.
(** The spaces of all the pages the series among [l] refer to. *)
Definition page_cells (st : store) (l : list seen) : list cellid :=
  flat_map (fun x => match snd x, get_object (st_data_root st) (fst x) with
                     | R_series, Some o => match page_series_node_parse o with Ok d => pn_page_spaces d | _ => [] end
                     | _, _ => [] end) l.
Lemma page_cells_in st l i o d c : In (i, R_series) l -> get_object (st_data_root st) i = Some o -> series_node o d ->
  In c (pn_page_spaces d) -> In c (page_cells st l).
Proof.
  intros I G D C. apply in_flat_map. exists (i, R_series). split; [exact I|]. cbn [fst snd]. rewrite G.
  apply series_ok in D. now rewrite D.
Qed.
(** [l0] is what is looked at in the section itself, [l1] what in its pages. *)
Definition surveyed (st : store) (l0 l1 : list seen) : bool :=
  let root := st_data_root st in
  match metadata_root root, content_root root with
  | Some m, Some c => mem l0 (m, R_section_meta) && mem l0 (c, R_section)
  | _, _ => false
  end && closed root l0 &&
  forallb (fun c => match object_space st c with
                    | Some sp => match metadata_root sp, content_root sp with
                                 | Some m, Some r => mem l1 (m, R_page_meta) && mem l1 (r, R_manifest)
                                 | _, _ => false end && closed sp l1
                    | None => false end) (page_cells st l0) &&
  forallb (fun x => match snd x with R_series => false | _ => true end) l1.

Section Survey.
  Variables (st : store) (l0 l1 : list seen).
  Hypothesis H : surveyed st l0 l1 = true.
  Definition page_space (sp : space) : Prop := exists c, In c (page_cells st l0) /\ object_space st c = Some sp.
  Lemma root_there : exists m c, metadata_root (st_data_root st) = Some m /\ content_root (st_data_root st) = Some c /\
    In (m, R_section_meta) l0 /\ In (c, R_section) l0.
  Proof.
    unfold surveyed in H. apply andb_prop in H as (K & _). apply andb_prop in K as (K & _). apply andb_prop in K as (K & _).
    destruct (metadata_root (st_data_root st)) as [m|]; [|discriminate K].
    destruct (content_root (st_data_root st)) as [c|]; [|discriminate K]. apply andb_prop in K as (K1 & K2).
    exists m, c. auto using mem_in.
  Qed.
  Lemma root_closed : closed (st_data_root st) l0 = true.
  Proof. unfold surveyed in H. apply andb_prop in H as (K & _). apply andb_prop in K as (K & _). now apply andb_prop in K. Qed.
  Lemma page_there c : In c (page_cells st l0) -> exists sp m r, object_space st c = Some sp /\ closed sp l1 = true /\
    metadata_root sp = Some m /\ content_root sp = Some r /\ In (m, R_page_meta) l1 /\ In (r, R_manifest) l1.
  Proof.
    intros I. unfold surveyed in H. apply andb_prop in H as (K & _). apply andb_prop in K as (_ & K).
    apply (proj1 (forallb_forall _ _) K) in I. destruct (object_space st c) as [sp|]; [|discriminate I].
    apply andb_prop in I as (I & C). destruct (metadata_root sp) as [m|] eqn:M; [|discriminate I].
    destruct (content_root sp) as [r|] eqn:R; [|discriminate I]. apply andb_prop in I as (I1 & I2). exists sp, m, r. auto 7 using mem_in.
  Qed.
  Lemma page_no_series i : ~ In (i, R_series) l1.
  Proof.
    intros I. unfold surveyed in H. apply andb_prop in H as (_ & K). apply (proj1 (forallb_forall _ _) K) in I. discriminate I.
  Qed.
  Definition listed (sp : space) (x : seen) : Prop := sp = st_data_root st /\ In x l0 \/ page_space sp /\ In x l1.
  Lemma listed_step sp x y : listed sp x -> step sp x y -> listed sp y.
  Proof.
    intros [(-> & I)|((c & C & S) & I)] T.
    - left. split; [reflexivity|]. exact (closed_step _ _ _ _ root_closed I T).
    - right. split; [exists c; auto|]. destruct (page_there c C) as (sp' & m & r & S' & K & _).
      assert (sp' = sp) as -> by congruence. exact (closed_step _ _ _ _ K I T).
  Qed.
  Lemma series_listed i : listed (st_data_root st) (i, R_series) -> In (i, R_series) l0.
  Proof. intros [(_ & I)|(_ & I)]; [exact I|contradiction (page_no_series i I)]. Qed.
  Lemma visits_listed sp i r : visits st sp i r -> listed sp (i, r).
  Proof.
    intros V. induction V as
      [j J|j J|i o d' c sp j _ IH G D I S J|i o d' c sp j _ IH G D I S J|sp i o r j r' _ IH G L|sp i o r r' _ IH G K].
    - left. split; [reflexivity|]. destruct root_there as (m & c & M & C & I1 & I2). now replace j with m by congruence.
    - left. split; [reflexivity|]. destruct root_there as (m & c & M & C & I1 & I2). now replace j with c by congruence.
    - assert (C := page_cells_in st l0 i o d' c (series_listed _ IH) G D I). right. split; [exists c; auto|].
      destruct (page_there c C) as (sp' & m & r & S' & _ & M & R & I1 & I2). assert (sp' = sp) as -> by congruence. now replace j with m by congruence.
    - assert (C := page_cells_in st l0 i o d' c (series_listed _ IH) G D I). right. split; [exists c; auto|].
      destruct (page_there c C) as (sp' & m & r & S' & _ & M & R & I1 & I2). assert (sp' = sp) as -> by congruence. now replace j with r by congruence.
    - apply (listed_step sp (i, r)); [exact IH|]. exists o. split; [exact G|]. left. exact L.
    - apply (listed_step sp (i, r)); [exact IH|]. exists o. split; [exact G|]. right. split; [reflexivity|exact K].
  Qed.
  Lemma listed_goes sp x : listed sp x -> exists m, goes sp x = Some m.
  Proof.
    intros [(-> & I)|((c & C & S) & I)]; [exact (closed_goes _ _ _ root_closed I)|].
    destruct (page_there c C) as (sp' & m & r & S' & K & _). assert (sp' = sp) as -> by congruence. exact (closed_goes _ _ _ K I).
  Qed.
  Lemma survey_faultless e : ~ fault st e.
  Proof.
    intros F. destruct F as [N|c (i & o & d & V & G & D & I) N|c sp (i & o & d & V & G & D & I) S N|sp i r V N|sp i r o e V G W].
    - destruct root_there as (m & c & M & C & _). destruct N; congruence.
    - apply visits_listed in V. assert (C := page_cells_in st l0 i o d c (series_listed _ V) G D I).
      destruct (page_there c C) as (sp' & m & r & S' & _). congruence.
    - apply visits_listed in V. assert (C := page_cells_in st l0 i o d c (series_listed _ V) G D I).
      destruct (page_there c C) as (sp' & m & r & S' & _ & M & R & _). assert (sp' = sp) as -> by congruence. destruct N; congruence.
    - apply visits_listed, listed_goes in V as (m & V). unfold goes in V. cbn [fst] in V. rewrite N in V. discriminate V.
    - apply visits_listed, listed_goes in V as (m & V). exact (onward_right _ _ _ _ _ _ V G W).
  Qed.
  Lemma survey_crashless : existsb (fun x => match snd x with R_list | R_text => true | _ => false end) (l0 ++ l1) = false -> ~ crash_at st.
  Proof.
    intros N (sp & i & C).
    assert (X : exists r, listed sp (i, r) /\ (r = R_list \/ r = R_text))
      by (destruct C as [(V & _)|(V & _)]; apply visits_listed in V; eauto).
    destruct X as (r & L & R). assert (I : In (i, r) (l0 ++ l1)) by (apply in_or_app; destruct L as [(_ & L)|(_ & L)]; auto).
    assert (E : existsb (fun x => match snd x with R_list | R_text => true | _ => false end) (l0 ++ l1) = true).
    { apply existsb_exists. exists (i, r). split; [exact I|]. cbn. now destruct R as [-> | ->]. }
    congruence.
  Qed.
  (** Each step leads to a role of a lower rank, or down in this ranking of the list. *)
  Fixpoint place (l : list seen) (x : seen) : nat :=
    match l with [] => 0 | y :: l' => if mem [y] x then length l' else place l' x end.
  Definition sorted (sp : space) (l : list seen) : bool :=
    forallb (fun x => match goes sp x with Some m => forallb (fun y => Nat.ltb (place l y) (place l x)) m | None => false end) l.
  Lemma sorted_acc sp l : closed sp l = true -> sorted sp l = true -> forall x, In x l -> Acc (stepped sp) x.
  Proof.
    intros C S. assert (Q : forall n x, (place l x < n)%nat -> In x l -> Acc (stepped sp) x).
    { induction n as [|n IH]; intros x L I; [lia|]. constructor. intros y Y. apply IH; [|exact (closed_step _ _ _ _ C I Y)].
      assert (I' := I). apply (proj1 (forallb_forall _ _) S) in I'. destruct (goes sp x) as [m|] eqn:E; [|discriminate I'].
      destruct x as [i r], y as [j r']. assert (M := onward_step sp i r j r' m E Y).
      apply (proj1 (forallb_forall _ _) I') in M. apply Nat.ltb_lt in M. lia. }
    intros x. exact (Q (Datatypes.S (place l x)) x (le_n _)).
  Qed.
  Lemma survey_ends : sorted (st_data_root st) l0 = true ->
    forallb (fun c => match object_space st c with Some sp => sorted sp l1 | None => false end) (page_cells st l0) = true -> ~ comes_round st.
  Proof.
    intros S0 S1 (sp & i & r & V & T). apply visits_listed in V.
    assert (A : Acc (stepped sp) (i, r)).
    { destruct V as [(-> & I)|((c & C & S) & I)]; [exact (sorted_acc _ _ root_closed S0 _ I)|].
      destruct (page_there c C) as (sp' & m & q & S' & K & _). assert (sp' = sp) as -> by congruence.
      apply (proj1 (forallb_forall _ _) S1) in C. rewrite S in C. exact (sorted_acc _ _ K C _ I). }
    revert T. now apply acc_loop.
  Qed.
End Survey.
