(** Property theorems C60: properties the reader does not ask for change nothing. *)
From Coq Require Import Lia Permutation Relations.
From Verif Require Import Base Codec SpecCodec Package SpecPackage PropSet PropIds SpecPropSet Store Shapes Props Nodes Doc
  SpecStore Notebook SpecForward ForwardProofs ExampleFile PropertiesStore ExampleSection ExampleNotebook PropertiesApi.

Theorem C60_section : forall st st' fuel file, store_alike st st' ->
  Doc.parse_section fuel st file = Doc.parse_section fuel st' file.
Proof. intros st st' fuel file. exact (al_section st st' fuel file). Qed.
Print Assumptions C60_section.

Theorem C60_page : forall sp sp' fuel, space_alike sp sp' -> parse_page fuel sp = parse_page fuel sp'.
Proof. exact al_page. Qed.
Print Assumptions C60_page.

Theorem C60_toc : forall sp sp' fuel, space_alike sp sp' -> parse_toc fuel sp = parse_toc fuel sp'.
Proof. exact al_toc. Qed.
Print Assumptions C60_toc.

(** Every object of a space with an unknown property put first. *)
Definition extra_id : N := 0x3FFFFFF.
Definition with_extra (o : object) : object :=
  Object (ob_context o) (ob_jcid o)
    (OProps (op_object_ids (ob_props o)) (op_space_ids (ob_props o)) (op_context_ids (ob_props o))
       ((extra_id, (0, VVec [1; 2; 3])) :: map (fun e => (fst e, (fst (snd e) + 1, snd (snd e)))) (op_props (ob_props o))))
    (ob_file o) (ob_mapping o).
Definition extra_space (sp : space) : space :=
  Space (sp_id sp) (sp_context sp) (sp_roots sp) (map (fun e => (fst e, with_extra (snd e))) (sp_objects sp)).

Fixpoint distinct_keys (l : list N) : bool :=
  match l with [] => true | x :: r => negb (existsb (N.eqb x) r) && distinct_keys r end.
Lemma distinct_keys_nodup l : distinct_keys l = true -> NoDup l.
Proof.
  induction l as [|x r IH]; cbn; intro H; [constructor|]. apply andb_true_iff in H as [H1 H2].
  constructor; [|auto]. intro X. apply negb_true_iff in H1. rewrite <- not_true_iff_false in H1. apply H1.
  apply existsb_exists. exists x. split; [exact X|apply N.eqb_refl].
Qed.

Definition extra_fits (o : object) : bool := distinct_keys (extra_id :: map fst (op_props (ob_props o))).
Lemma with_extra_alike o : extra_fits o = true -> object_alike o (with_extra o).
Proof.
  intro H. apply distinct_keys_nodup in H. inversion H as [|? ? N D]; subst.
  repeat split. apply rst_step. exists 0, extra_id, (VVec [1; 2; 3]). repeat apply conj; auto.
  - unfold unknown, extra_id. intro X. assert (E : existsb (N.eqb 0x3FFFFFF) (map (fun p => p mod 2 ^ 26) known) = false) by (vm_compute; reflexivity).
    rewrite <- not_true_iff_false in E. apply E. apply existsb_exists. eexists. split; [exact X|reflexivity].
  - cbn [with_extra ob_props op_props]. apply perm_skip.
    erewrite map_ext; [apply Permutation_refl|]. intros [p [i w]]. cbn.
    destruct (i <? 0) eqn:E; [apply N.ltb_lt in E; lia|reflexivity].
Qed.

Lemma extra_space_alike sp : forallb (fun e => extra_fits (snd e)) (sp_objects sp) = true ->
  space_alike sp (extra_space sp).
Proof.
  intro H. unfold space_alike. refine (conj eq_refl (conj eq_refl _)). intro id. unfold get_object, extra_space. cbn [sp_objects]. revert H.
  induction (sp_objects sp) as [|[k o] l IH]; cbn; intro H; [exact I|].
  apply andb_true_iff in H as [H1 H2]. destruct (exguid_eqb id k); [now apply with_extra_alike|exact (IH H2)].
Qed.

(** The page of the sample section, with an unknown property in every object. *)
Definition page_space (d : list N) : option space :=
  match open_store order_id 5 d with Ok st => object_space st page_cell | _ => None end.
Example C60_example : exists sp, page_space sample_section = Some sp /\
  space_alike sp (extra_space sp) /\ (3 <= length (sp_objects sp))%nat /\
  is_ok (parse_page 5 (extra_space sp)) = true.
Proof.
  assert (X : (match page_space sample_section with
               | Some sp => forallb (fun e => extra_fits (snd e)) (sp_objects sp)
                            && (3 <=? length (sp_objects sp))%nat && is_ok (parse_page 5 (extra_space sp))
               | None => false end) = true) by (vm_compute; reflexivity).
  destruct (page_space sample_section) as [sp|]; [|discriminate]. exists sp.
  apply andb_true_iff in X as [X X3]. apply andb_true_iff in X as [X1 X2]. repeat apply conj; auto.
  - now apply extra_space_alike.
  - now apply Nat.leb_le.
Qed.

(** A page marked as a conflict page, or as having older versions, and ink with a
    vertical scale are among them. *)
Definition unknownb (id : N) : bool := negb (existsb (N.eqb id) (map (fun p => p mod 2 ^ 26) known)).
Lemma unknownb_ok id : unknownb id = true -> unknown id.
Proof.
  unfold unknownb, unknown. intros H X. apply negb_true_iff in H. rewrite <- not_true_iff_false in H. apply H.
  apply existsb_exists. exists id. split; [exact X|apply N.eqb_refl].
Qed.
Example C60_unread_example :
  Forall (fun p => unknown (p mod 2 ^ 26)) [P_IsConflictPage; P_HasVersionPages; P_InkScalingY; P_EnableHistory].
Proof. repeat constructor; apply unknownb_ok; vm_compute; reflexivity. Qed.
