(** The notebook whose entries are links to itself: proofs about ExampleNotebook.v. *)
From Coq Require Import Lia ZifyBool ZifyNat ZifyN.
From Verif Require Import Base Codec Package PropSet PropIds Store Shapes Props Nodes Doc PropertiesStore
  NodesProofs DocProofs5 SpecNotebook Notebook NotebookProofs NotebookProofs2 NotebookProofs3 ExampleFile ExampleSection ExampleNotebook.
Local Open Scope nat_scope.

Definition links (w : list name) : Prop := Forall (fun n => n = name_a \/ n = name_b) w.
Lemma links_ok w : links w -> forallb is_link (map Normal w) = true.
Proof. intros H. induction H as [|n w [->| ->] H IH]; cbn; auto. Qed.
Lemma strip_home r : strip home (home ++ r) = Some r. Proof. reflexivity. Qed.
Lemma follow_in lim w : links w -> within lim (length w) = true -> follow lim (home ++ map Normal w) = Some home.
Proof. intros H L. unfold follow. rewrite strip_home, links_ok by exact H. now rewrite map_length, L. Qed.
Lemma follow_out lim w : links w -> within lim (length w) = false -> follow lim (home ++ map Normal w) = None.
Proof.
  intros H L. unfold follow. rewrite strip_home, links_ok by exact H. rewrite map_length, L. cbn [andb].
  rewrite <- map_rev. destruct (rev w) as [|n r] eqn:E; [reflexivity|]. cbn [map].
  assert (Hn : In n w) by (apply in_rev; rewrite E; now left). unfold links in H. rewrite Forall_forall in H.
  destruct (H n Hn) as [->| ->]; reflexivity.
Qed.
Lemma follow_toc lim w : links w -> within lim (length w) = true ->
  follow lim (home ++ map Normal w ++ [Normal name_toc]) = Some (home ++ [Normal name_toc]).
Proof.
  intros H L. unfold follow. rewrite strip_home, forallb_app, links_ok by exact H. cbn [forallb andb].
  change (is_link (Normal name_toc)) with false. cbn [andb]. rewrite rev_app_distr. cbn [rev app].
  change (name_eqb name_toc name_toc) with true. cbn [andb]. rewrite <- map_rev, map_length, rev_length, L.
  rewrite links_ok; [reflexivity|]. unfold links in *. rewrite Forall_forall in *. intros n Hn. apply H. now apply in_rev.
Qed.

(** The table of contents. *)
Lemma link_opens : exists st c, open_store order_id 3 link_toc = Ok st /\ st_schema st = toc_schema /\
  parse_toc 3 (st_data_root st) = Ok ([name_a; name_b], c).
Proof.
  assert (K : match open_store order_id 3 link_toc with
              | Ok st => N.eqb (st_schema st) toc_schema &&
                match parse_toc 3 (st_data_root st) with
                | Ok ([x; y], _) => name_eqb x name_a && name_eqb y name_b
                | _ => false end
              | _ => false end = true) by (vm_compute; reflexivity).
  destruct (open_store order_id 3 link_toc) as [st| | |]; try discriminate K.
  apply andb_prop in K as (K1 & K2). apply N.eqb_eq in K1. exists st.
  destruct (parse_toc 3 (st_data_root st)) as [(ns, c)| | |]; try discriminate K2.
  destruct ns as [|x [|y [|]]]; try discriminate K2. apply andb_prop in K2 as (K2 & K3).
  apply name_eqb_eq in K2 as ->. apply name_eqb_eq in K3 as ->. exists c. auto.
Qed.

Lemma resolve_link sanitise lim w n : (forall x, x = name_a \/ x = name_b -> sanitise x = x) ->
  n = name_a \/ n = name_b -> links w -> within lim (length w) = true ->
  resolve_entry_path sanitise (link_fs lim) (home ++ map Normal w) n = Ok (home ++ map Normal (w ++ [n])).
Proof.
  intros Hs Hn Hw L. assert (Hl : links (w ++ [n])) by (apply Forall_app; split; [exact Hw|constructor; [exact Hn|constructor]]).
  apply resolve_ok. exists [n], [n]. rewrite map_app, app_assoc.
  split; [destruct Hn as [->| ->]; repeat split; try discriminate; constructor; try constructor; intros [K|[]]; discriminate K|].
  split; [destruct Hn as [->| ->]; discriminate|].
  split; [apply pk_take; [destruct Hn as [->| ->]; split; discriminate|constructor]|]. split; [discriminate|].
  split; [constructor; [|constructor]; split; [destruct Hn as [->| ->]; discriminate|auto]|]. split; [reflexivity|].
  intros He. exists home, home. cbn [fs_canonicalize link_fs]. split; [now apply follow_in|].
  assert (E : (home ++ map Normal w) ++ map Normal [n] = home ++ map Normal (w ++ [n])) by now rewrite map_app, app_assoc.
  rewrite E in *. split; [|now exists []]. destruct (within lim (length (w ++ [n]))) eqn:W; [now apply follow_in|].
  cbn [fs_exists link_fs] in He. rewrite follow_out in He by assumption. discriminate He.
Qed.
Lemma link_not_bin w n : n = name_a \/ n = name_b -> is_recycle_bin (home ++ map Normal (w ++ [n])) = false.
Proof. intros H. unfold is_recycle_bin. rewrite map_app, app_assoc, rev_app_distr. cbn. destruct H as [->| ->]; reflexivity. Qed.

(** One step: at depth [length w]. *)
Lemma link_step sanitise lim fuel d w : (forall x, x = name_a \/ x = name_b -> sanitise x = x) -> 3 <= fuel ->
  links w -> within lim (length w) = true ->
  exists c, parse_notebook sanitise order_id (S d) fuel (link_fs lim) (home ++ map Normal w ++ [Normal name_toc]) =
    if within lim (S (length w)) then
      let! es := map_res (fun n => let! g := parse_notebook sanitise order_id d fuel (link_fs lim)
                                     (home ++ map Normal (w ++ [n]) ++ [Normal name_toc]) in
                                   Ok (EnGroup n (nb_entries g))) [name_a; name_b] in
      Ok (Notebook_ es c)
    else Ok (Notebook_ [] c).
Proof.
  intros Hs Hf Hw L. destruct link_opens as (st & c & Ho & Hsch & Ht). exists c. rewrite notebook_step.
  assert (R : fs_read (link_fs lim) (home ++ map Normal w ++ [Normal name_toc]) = Some link_toc).
  { cbn [fs_read link_fs]. now rewrite follow_toc. }
  rewrite R. cbn [ok_or rbind]. rewrite (open_mono order_id 3 fuel) with (st := st) by assumption. cbn [rbind].
  rewrite (proj2 (N.eqb_eq _ _) Hsch). rewrite app_assoc, parent_snoc by discriminate. cbn [ok_or rbind].
  rewrite (toc_mono 3 fuel) with (r := ([name_a; name_b], c)) by assumption. cbn [rbind].
  assert (Rs : map_res (resolve_entry_path sanitise (link_fs lim) (home ++ map Normal w)) [name_a; name_b] =
     Ok [home ++ map Normal (w ++ [name_a]); home ++ map Normal (w ++ [name_b])]).
  { cbn [map_res]. rewrite !resolve_link by auto. reflexivity. }
  rewrite Rs. cbn [rbind]. unfold shown_paths.
  assert (La : links (w ++ [name_a])) by (apply Forall_app; split; [exact Hw|constructor; [now left|constructor]]).
  assert (Lb : links (w ++ [name_b])) by (apply Forall_app; split; [exact Hw|constructor; [now right|constructor]]).
  assert (Ex : forall n, n = name_a \/ n = name_b -> fs_exists (link_fs lim) (home ++ map Normal (w ++ [n])) = within lim (S (length w))).
  { intros n Hn. assert (Ll : links (w ++ [n])) by (destruct Hn as [->| ->]; assumption). cbn [fs_exists link_fs].
    assert (El : length (w ++ [n]) = S (length w)) by (rewrite app_length; cbn; lia).
    destruct (within lim (S (length w))) eqn:W; [rewrite follow_in|rewrite follow_out]; auto; rewrite El; exact W. }
  cbn [filter]. rewrite !Ex by auto. destruct (within lim (S (length w))) eqn:W; [|reflexivity]. cbn [filter].
  rewrite !link_not_bin by auto. cbn [negb].
  assert (Le : forall n, n = name_a \/ n = name_b -> load_entry sanitise order_id d fuel (link_fs lim) (home ++ map Normal (w ++ [n])) =
    let! g := parse_notebook sanitise order_id d fuel (link_fs lim) (home ++ map Normal (w ++ [n]) ++ [Normal name_toc]) in
    Ok (EnGroup n (nb_entries g))).
  { intros n Hn. assert (Ll : links (w ++ [n])) by (destruct Hn as [->| ->]; assumption).
    assert (F : follow lim (home ++ map Normal (w ++ [n])) = Some home).
    { apply follow_in; [exact Ll|]. rewrite app_length. cbn. now replace (length w + 1) with (S (length w)) by lia. }
    unfold load_entry. cbn [fs_is_file fs_read_dir link_fs]. rewrite F.
    change (path_eqb home (home ++ [Normal name_toc])) with false. cbn iota.
    assert (Fn : file_name (home ++ map Normal (w ++ [n])) = Some n).
    { apply file_name_iff. exists (home ++ map Normal w). unfold ends_in. now rewrite map_app, app_assoc. }
    rewrite Fn. cbn [ok_or rbind]. change (path_eqb home home) with true. cbn [ok_or rbind].
    rewrite find_hit by (exists [116%N]; split; [discriminate|reflexivity]). cbn [rbind]. now rewrite <- app_assoc. }
  cbn [map_res]. rewrite !Le by auto. reflexivity.
Qed.

Lemma link_forever sanitise fuel : (forall x, x = name_a \/ x = name_b -> sanitise x = x) -> 3 <= fuel ->
  forall d w, links w -> parse_notebook sanitise order_id d fuel (link_fs None) (home ++ map Normal w ++ [Normal name_toc]) = OutOfFuel.
Proof.
  intros Hs Hf. induction d as [|d IH]; intros w Hw; [reflexivity|].
  destruct (link_step sanitise None fuel d w Hs Hf Hw eq_refl) as (c & ->). cbn [within map_res].
  rewrite IH; [reflexivity|]. apply Forall_app; split; [exact Hw|constructor; [now left|constructor]].
Qed.

Fixpoint groups (e : section_entry) : nat :=
  match e with EnSection _ => 0 | EnGroup _ es => S (list_sum (map groups es)) end.
Lemma link_blowup sanitise fuel lim : (forall x, x = name_a \/ x = name_b -> sanitise x = x) -> 3 <= fuel ->
  forall n d w, links w -> lim = n + length w -> n < d ->
  exists nb, parse_notebook sanitise order_id d fuel (link_fs (Some lim)) (home ++ map Normal w ++ [Normal name_toc]) = Ok nb /\
    list_sum (map groups (nb_entries nb)) + 2 = 2 ^ (S n).
Proof.
  intros Hs Hf. induction n as [|n IH]; intros [|d] w Hw Hl Hd; try lia;
    (destruct (link_step sanitise (Some lim) fuel d w Hs Hf Hw) as (c & ->); [cbn; lia|]); cbn [within].
  - replace (S (length w) <=? lim) with false by lia. eexists. split; reflexivity.
  - replace (S (length w) <=? lim) with true by lia.
    destruct (IH d (w ++ [name_a])) as (g1 & E1 & N1); [apply Forall_app; split; [exact Hw|constructor; [now left|constructor]]|rewrite app_length; cbn; lia|lia|].
    destruct (IH d (w ++ [name_b])) as (g2 & E2 & N2); [apply Forall_app; split; [exact Hw|constructor; [now right|constructor]]|rewrite app_length; cbn; lia|lia|].
    cbn [map_res]. rewrite E1, E2. cbn [rbind]. eexists. split; [reflexivity|]. cbn [nb_entries map groups].
    change (list_sum [S (list_sum (map groups (nb_entries g1))); S (list_sum (map groups (nb_entries g2)))])
      with (S (list_sum (map groups (nb_entries g1))) + (S (list_sum (map groups (nb_entries g2))) + 0)).
    change (2 ^ S (S n)) with (2 ^ S n + (2 ^ S n + 0)). lia.
Qed.
