(** Node parsers against SpecNodes.v. *)
From Coq Require Import Lia ZifyBool ZifyNat ZifyN.
From Verif Require Import Base BaseProofs Codec Package PropSet PropIds Store Shapes Props Nodes Doc
  SpecCodec SpecValues ValuesProofs SpecNodes.
Ltac Zify.zify_post_hook ::= Z.div_mod_to_equations.

Lemma bind_ok {A B} (r : res A) (f : A -> res B) b : rbind r f = Ok b <-> exists a, r = Ok a /\ f a = Ok b.
Proof.
  destruct r as [a|e| |]; cbn; split; try discriminate; try (intros (x & E & _); discriminate E).
  - intros H. now exists a.
  - intros (x & E & H). now injection E as ->.
Qed.
Lemma bind_intro {A B} (r : res A) (f : A -> res B) a b : r = Ok a -> f a = Ok b -> rbind r f = Ok b.
Proof. now intros -> H. Qed.

(** ** Readers *)
Lemma get_prop_iff {A} (conv : pvalue -> option A) (R : pvalue -> A -> Prop) :
  (forall v a, conv v = Some a <-> R v a) ->
  forall id o x, get_prop conv id o = Ok x <-> optional o id R x.
Proof.
  intros HR id o x. unfold get_prop, optional, stored.
  destruct (oprops_get id (ob_props o)) as [v|]; cbn.
  - destruct (conv v) as [a|] eqn:E; cbn.
    + split; [intros [= <-]; exists a; split; [now apply HR|reflexivity]|].
      intros (b & Hb & ->). apply HR in Hb. now rewrite E in Hb; injection Hb as ->.
    + split; [discriminate|]. intros (b & Hb & _). apply HR in Hb. now rewrite E in Hb.
  - split; [now intros [= <-]|now intros ->].
Qed.
Lemma bool_iff id o x : prop_bool id o = Ok x <-> optional o id boolean x.
Proof. apply get_prop_iff. intros [] a; unfold boolean; cbn; split; try discriminate; now intros [= ->]. Qed.
Lemma u8_iff id o x : prop_u8 id o = Ok x <-> optional o id byte x.
Proof. apply get_prop_iff. intros [] a; unfold byte; cbn; split; try discriminate; now intros [= ->]. Qed.
Lemma u16_iff id o x : prop_u16 id o = Ok x <-> optional o id word x.
Proof. apply get_prop_iff. intros [] a; unfold word; cbn; split; try discriminate; now intros [= ->]. Qed.
Lemma u32_iff id o x : prop_u32 id o = Ok x <-> optional o id dword x.
Proof. apply get_prop_iff. intros [] a; unfold dword; cbn; split; try discriminate; now intros [= ->]. Qed.
Lemma f32_iff id o x : prop_f32 id o = Ok x <-> optional o id float x.
Proof. apply u32_iff. Qed.
Lemma time_iff id o x : time_parse id o = Ok x <-> optional o id dword x.
Proof. apply u32_iff. Qed.
Lemma u64_iff id o x : timestamp_parse id o = Ok x <-> optional o id qword x.
Proof. apply get_prop_iff. intros [] a; unfold qword; cbn; split; try discriminate; now intros [= ->]. Qed.
Lemma vec_iff id o x : prop_vec id o = Ok x <-> optional o id raw x.
Proof. apply get_prop_iff. intros [] a; unfold raw; cbn; split; try discriminate; now intros [= ->]. Qed.

(** A reader whose value is decoded further. *)
Lemma then_iff {A B} (rd : object -> res (option A)) id (R : pvalue -> A -> Prop) (f : A -> res B) o x
      (S : pvalue -> B -> Prop) :
  (forall x, rd o = Ok x <-> optional o id R x) ->
  (forall v b, S v b <-> exists a, R v a /\ f a = Ok b) ->
  (forall v a b, R v a -> R v b -> a = b) ->
  (let! v := rd o in opt_map_res f v) = Ok x <-> optional o id S x.
Proof.
  intros Hr HS Hu. rewrite bind_ok. unfold optional in *. destruct (stored o id) as [v|].
  - split.
    + intros (a & Ha & Hf). apply Hr in Ha as (a' & Ha & ->). cbn in Hf.
      apply bind_ok in Hf as (b & Hb & [= <-]). exists b. split; [apply HS; eauto|reflexivity].
    + intros (b & Hb & ->). apply HS in Hb as (a & Ha & Hf). exists (Some a). split; [apply Hr; eauto|].
      cbn. now rewrite Hf.
  - split.
    + intros (a & Ha & Hf). apply Hr in Ha as ->. now injection Hf as <-.
    + intros ->. exists None. split; [now apply Hr|reflexivity].
Qed.
Lemma rmap_iff {A B} (rd : object -> res (option A)) id (R : pvalue -> A -> Prop) (f : A -> B) o x
      (S : pvalue -> B -> Prop) :
  (forall x, rd o = Ok x <-> optional o id R x) ->
  (forall v b, S v b <-> exists a, R v a /\ b = f a) ->
  (forall v a b, R v a -> R v b -> a = b) ->
  rmap f (rd o) = Ok x <-> optional o id S x.
Proof.
  intros Hr HS Hu. rewrite <- (then_iff rd id R (fun a => Ok (f a)) o x S Hr).
  - unfold rmap. destruct (rd o) as [[a|]| | |]; reflexivity.
  - intros v b. rewrite HS. split; intros (a & Ha & E); exists a; split; auto; congruence.
  - exact Hu.
Qed.
Lemma fun_u32 v a b : dword v a -> dword v b -> a = b.
Proof. unfold dword. congruence. Qed.
Lemma fun_u16 v a b : word v a -> word v b -> a = b.
Proof. unfold word. congruence. Qed.
Lemma fun_u8 v a b : byte v a -> byte v b -> a = b.
Proof. unfold byte. congruence. Qed.
Lemma fun_vec v a b : raw v a -> raw v b -> a = b.
Proof. unfold raw. congruence. Qed.
Lemma fun_bool v a b : boolean v a -> boolean v b -> a = b.
Proof. unfold boolean. congruence. Qed.

Lemma string_iff id o x : prop_string id o = Ok x <-> optional o id text x.
Proof.
  unfold prop_string. apply (then_iff (prop_vec id) id raw); [apply vec_iff| |exact fun_vec].
  intros v b. unfold text, raw. split.
  - intros (d & -> & E). exists d. split; [reflexivity|]. now rewrite E.
  - intros (d & -> & E). exists d. split; [reflexivity|].
    destruct (utf16_to_string d); congruence.
Qed.
Lemma run_ok {A} (p : parser A) d a : run p d = Ok a <-> exists rest, p d = Ok (a, rest).
Proof.
  unfold run. rewrite bind_ok. split.
  - intros ((a' & r) & E & [= <-]). now exists r.
  - intros (r & E). now exists (a, r).
Qed.
Lemma guid_iff_ id o x : prop_guid id o = Ok x <-> optional o id uuid x.
Proof.
  unfold prop_guid. apply (then_iff (prop_vec id) id raw); [apply vec_iff| |exact fun_vec].
  intros v b. unfold uuid, raw. split.
  - intros (d & r & -> & E). exists d. split; [reflexivity|]. apply run_ok. eauto.
  - intros (d & -> & E). apply run_ok in E as (r & E). eauto.
Qed.
Lemma i32_signed n : i32_of n = if n <? 0x80000000 then Z.of_N n else (Z.of_N n - 0x100000000)%Z.
Proof. reflexivity. Qed.
Lemma signed_iff id o x : rmap i32_of (prop_u32 id o) = Ok x <-> optional o id signed x.
Proof. apply (rmap_iff (prop_u32 id) id dword); [apply u32_iff| |exact fun_u32]. intros v b. unfold signed, dword.
  split; intros (n & -> & ->); exists n; (split; [reflexivity|]); [symmetry|]; apply i32_signed.
Qed.
Lemma inverted_iff id o x : rmap negb (prop_bool id o) = Ok x <-> optional o id inverted x.
Proof.
  apply (rmap_iff (prop_bool id) id boolean); [apply bool_iff| |exact fun_bool].
  intros v b. unfold inverted, boolean. split.
  - intros ->. exists (negb b). split; [reflexivity|now rewrite negb_involutive].
  - intros (a & -> & ->). now rewrite negb_involutive.
Qed.
Lemma numbers_fun w d a b : (0 < w)%nat -> numbers w d a -> numbers w d b -> a = b.
Proof.
  intros Hw H. revert b. induction H as [d Hd|d n ns Hd Hn r Hr IH]; intros b Hb.
  - inversion Hb as [|d' n' ns' Hd' Hn' r' Hr' E1 E2]; [reflexivity|]. subst. rewrite app_length in Hd. lia.
  - inversion Hb as [d2 Hd' E1 E2|d' n' ns' Hd' Hn' r' Hr' E1 E2].
    + rewrite app_length in Hd'. lia.
    + apply (f_equal (firstn w)) in E1 as E3. apply (f_equal (skipn w)) in E1 as E4.
      rewrite <- Hd in E3 at 2. rewrite <- Hd in E4 at 2. rewrite <- Hd' in E3 at 1. rewrite <- Hd' in E4 at 1.
      rewrite !firstn_app, !firstn_all, !Nat.sub_diag, !firstn_O, !app_nil_r in E3.
      rewrite !skipn_app, !skipn_all, !Nat.sub_diag, !skipn_O in E4. cbn in E4.
      subst. f_equal. now apply IH.
Qed.
Lemma u32_chunks_numbers d : numbers 4 d (u32_chunks d).
Proof.
  remember (length d) as n eqn:Hn. revert d Hn. induction n as [n IH] using lt_wf_ind. intros d Hn.
  destruct d as [|a [|b [|c [|e r]]]]; try (constructor; cbn; lia).
  cbn [u32_chunks]. refine (nm_more 4 [a;b;c;e] _ _ eq_refl _ r _).
  - cbn [le]. lia.
  - apply (IH (length r)); [cbn in Hn; lia|reflexivity].
Qed.
Lemma u16_chunks_numbers d : numbers 2 d (u16_chunks d).
Proof.
  remember (length d) as n eqn:Hn. revert d Hn. induction n as [n IH] using lt_wf_ind. intros d Hn.
  destruct d as [|a [|b r]]; try (constructor; cbn; lia).
  cbn [u16_chunks]. refine (nm_more 2 [a;b] _ _ eq_refl _ r _).
  - cbn [le]. lia.
  - apply (IH (length r)); [cbn in Hn; lia|reflexivity].
Qed.
Lemma dwords_iff id o x : prop_vec_u32 id o = Ok x <-> optional o id dwords x.
Proof.
  apply (rmap_iff (prop_vec id) id raw); [apply vec_iff| |exact fun_vec].
  intros v b. unfold dwords, raw. split; intros (d & -> & H); exists d; (split; [reflexivity|]).
  - eapply numbers_fun; [|eassumption|apply u32_chunks_numbers]. lia.
  - subst. apply u32_chunks_numbers.
Qed.
Lemma words_iff id o x : prop_vec_u16 id o = Ok x <-> optional o id words x.
Proof.
  apply (rmap_iff (prop_vec id) id raw); [apply vec_iff| |exact fun_vec].
  intros v b. unfold words, raw. split; intros (d & -> & H); exists d; (split; [reflexivity|]).
  - eapply numbers_fun; [|eassumption|apply u16_chunks_numbers]. lia.
  - subst. apply u16_chunks_numbers.
Qed.

(** Tables. *)
Lemma decodes_ok {A} (f : N -> res A) table n a e : decodes f Ok table (Err e) -> f n = Ok a <-> In (n, a) table.
Proof.
  intros (Hn & _ & Hin & Hout). split; [|apply Hin]. intros E.
  destruct (in_dec N.eq_dec n (map fst table)) as [H|H].
  - apply in_map_iff in H as ((n' & a') & Hn' & H). cbn in Hn'. subst n'.
    pose proof (Hin _ _ H) as E'. rewrite E in E'. now injection E' as ->.
  - rewrite (Hout _ H) in E. discriminate E.
Qed.
Lemma charset_iff id o x : charset_parse id o = Ok x <-> optional o id (entry VU8 charset_table) x.
Proof.
  unfold charset_parse. apply (then_iff (prop_u8 id) id byte); [apply u8_iff| |exact fun_u8].
  intros v b. unfold entry, byte. split; intros (n & -> & H); exists n; (split; [reflexivity|]);
    now apply (decodes_ok _ _ _ _ _ (proj1 charset_decodes)).
Qed.
Lemma page_size_iff id o x : page_size_parse id o = Ok x <-> optional o id (entry VU8 page_size_table) x.
Proof.
  unfold page_size_parse. apply (then_iff (prop_u8 id) id byte); [apply u8_iff| |exact fun_u8].
  intros v b. unfold entry, byte. split; intros (n & -> & H); exists n; (split; [reflexivity|]);
    now apply (decodes_ok _ _ _ _ _ (proj1 page_size_decodes)).
Qed.
Lemma shape_iff id o x : (let! v := prop_u16 id o in opt_map_res shape_parse v) = Ok x <->
  optional o id (entry VU16 (coded shape_list)) x.
Proof.
  apply (then_iff (prop_u16 id) id word); [apply u16_iff| |exact fun_u16].
  intros v b. unfold entry, word. split; intros (n & -> & H); exists n; (split; [reflexivity|]);
    now apply (decodes_ok _ _ _ _ _ (proj1 shape_decodes)).
Qed.
Lemma bias_decodes : decodes ink_bias_of Ok bias_table (Err MalformedOneNoteFileData).
Proof. table_proof. Qed.
Lemma bias_iff id o x : (let! v := prop_u8 id o in opt_map_res ink_bias_of v) = Ok x <->
  optional o id (entry VU8 bias_table) x.
Proof.
  apply (then_iff (prop_u8 id) id byte); [apply u8_iff| |exact fun_u8].
  intros v b. unfold entry, byte. split; intros (n & -> & H); exists n; (split; [reflexivity|]);
    now apply (decodes_ok _ _ _ _ _ bias_decodes).
Qed.
Lemma path_iff id o x : (let! v := prop_vec id o in opt_map_res decode_signed v) = Ok x <-> optional o id path x.
Proof.
  apply (then_iff (prop_vec id) id raw); [apply vec_iff| |exact fun_vec]. intros v b. reflexivity.
Qed.
Lemma align_iff o x : paragraph_alignment_parse o = Ok x <-> optional o 0x0C003477 paragraph_align x.
Proof.
  unfold paragraph_alignment_parse. apply (rmap_iff (prop_u8 _) _ byte); [apply u8_iff| |exact fun_u8].
  intros v b. unfold paragraph_align, byte. split; intros (n & -> & H); exists n; (split; [reflexivity|]).
  - destruct H as [H|(H & ->)].
    + cbn in H. repeat destruct H as [[= <- <-]|H]; try reflexivity. destruct H.
    + destruct n as [|p]; [lia|]. repeat (destruct p as [p|p|]; try reflexivity; try lia).
  - subst. destruct (N.leb_spec n 2) as [Hl|Hl].
    + left. assert (n = 0 \/ n = 1 \/ n = 2) as [->|[->| ->]] by lia; cbn; tauto.
    + right. split; [exact Hl|]. destruct n as [|p]; [lia|].
      repeat (destruct p as [p|p|]; try reflexivity; try lia).
Qed.

(** ** Colours and bits *)
Lemma argb_iff id o x : color_parse id o = Ok x <-> optional o id argb x.
Proof.
  unfold color_parse. apply (rmap_iff (prop_u32 id) id dword); [apply u32_iff| |exact fun_u32].
  intros v b. unfold argb, dword.
  split; intros (n & -> & ->); exists n; (split; [reflexivity|]); rewrite !le_byte_div;
    change (8 * 0) with 0; change (2 ^ 0) with 1; rewrite N.div_1_r; reflexivity.
Qed.
Lemma colorref_iff id o x : color_ref_parse id o = Ok x <-> optional o id colorref x.
Proof.
  unfold color_ref_parse. apply (then_iff (prop_u32 id) id dword); [apply u32_iff| |exact fun_u32].
  intros v b. unfold colorref, dword. split; intros (n & -> & H); exists n; (split; [reflexivity|]);
    revert H; rewrite !le_byte_div; change (8 * 0) with 0; change (2 ^ 0) with 1; rewrite N.div_1_r;
    change (2 ^ (8 * 3)) with (2 ^ 24); change (2 ^ (8 * 2)) with (2 ^ 16); change (2 ^ (8 * 1)) with (2 ^ 8);
    set (q := n / 2 ^ 24 mod 256).
  - intros [(E & ->)|(E & ->)]; rewrite E; reflexivity.
  - assert (Hq : q < 256) by (apply N.mod_lt; discriminate). clearbody q.
    destruct (N.eqb_spec q 0) as [->|H0]; [intros [= <-]; right; split; reflexivity|].
    destruct (N.eqb_spec q 255) as [->|H1]; [intros [= <-]; left; split; reflexivity|].
    destruct q as [|p]; [tauto|]. intros H. exfalso.
    repeat (first [discriminate H | destruct p as [p|p|] | tauto]).
Qed.
Lemma status_iff o x : action_item_status_parse o = Ok x <-> optional o 0x10003470 status_bits x.
Proof.
  unfold action_item_status_parse. apply (rmap_iff (prop_u16 _) _ word); [apply u16_iff| |exact fun_u16].
  intros v b. unfold status_bits, word.
  split; intros (n & -> & ->); exists n; (split; [reflexivity|]); rewrite !bit_testbit; reflexivity.
Qed.
Lemma tag_status_iff o x : note_tag_status_parse o = Ok x <-> optional o 0x14003467 tag_status_bits x.
Proof.
  unfold note_tag_status_parse. apply (rmap_iff (prop_u32 _) _ dword); [apply u32_iff| |exact fun_u32].
  intros v b. unfold tag_status_bits, dword.
  split; intros (n & -> & ->); exists n; (split; [reflexivity|]); rewrite !bit_testbit; reflexivity.
Qed.
Lemma item_type_table_of n t : n < 100 /\ t = AtNumeric n \/ In (n, t) item_type_table \/ 105 < n /\ t = AtUnknown
  <-> t = action_item_type_of n.
Proof.
  unfold action_item_type_of. destruct (N.leb_spec n 99) as [H|H].
  - split; [|intros ->; left; split; [lia|reflexivity]].
    intros [(_ & ->)|[Hin|(Hn & _)]]; [reflexivity| |lia].
    cbn in Hin. repeat destruct Hin as [[= <- _]|Hin]; try lia.
  - destruct (N.leb_spec n 105) as [H'|H'].
    + assert (n = 100 \/ n = 101 \/ n = 102 \/ n = 103 \/ n = 104 \/ n = 105) as E by lia.
      destruct E as [->|[->|[->|[->|[->| ->]]]]]; (split; [|intros ->; right; left; cbn; tauto]);
        (intros [(Hn & _)|[Hin|(Hn & _)]]; [lia| |lia]); cbn in Hin;
        repeat destruct Hin as [Hin|Hin]; try discriminate Hin; try injection Hin as <-; try reflexivity; try destruct Hin.
    + assert (E : match n with 100 => AtDueToday | 101 => AtDueTomorrow | 102 => AtDueThisWeek
                 | 103 => AtDueNextWeek | 104 => AtNoDueDate | 105 => AtCustomDueDate | _ => AtUnknown end = AtUnknown).
      { destruct n as [|p]; [reflexivity|]. repeat (first [reflexivity | destruct p as [p|p|] | lia]). }
      rewrite E. split; [|intros ->; right; right; split; [lia|reflexivity]].
      intros [(Hn & _)|[Hin|(_ & ->)]]; [lia| |reflexivity].
      cbn in Hin. repeat destruct Hin as [[= <- _]|Hin]; try lia.
Qed.
Lemma item_type_iff o x : action_item_type_parse o = Ok x <-> optional o 0x10003463 item_type x.
Proof.
  unfold action_item_type_parse. apply (rmap_iff (prop_u16 _) _ word); [apply u16_iff| |exact fun_u16].
  intros v b. unfold item_type, word.
  split; intros (n & -> & H); exists n; (split; [reflexivity|]); now apply item_type_table_of.
Qed.

(** ** Structured byte strings *)
Lemma get_le_ok (k : nat) bs v rest : get_le (N.of_nat k) bs = Ok (v, rest) <->
  exists d, length d = k /\ bs = d ++ rest /\ v = le d.
Proof.
  unfold get_le, read, pbind, remaining, pret.
  destruct (N.ltb_spec (N.of_nat (length bs)) (N.of_nat k)) as [H|H].
  - split; [discriminate|]. intros (d & Hd & -> & _). rewrite app_length in H. lia.
  - rewrite Nat2N.id. split.
    + intros [= <- <-]. exists (firstn k bs). split; [apply firstn_length_le; lia|].
      split; [now rewrite firstn_skipn|reflexivity].
    + intros (d & Hd & -> & ->). subst k. rewrite firstn_app, skipn_app, firstn_all, skipn_all, Nat.sub_diag.
      cbn. now rewrite app_nil_r.
Qed.
Lemma rep_floats fuel : forall n bs ns rest, (N.to_nat n <= fuel)%nat ->
  rep_fuel get_f32 fuel n bs = Ok (ns, rest) <->
  n = N.of_nat (length ns) /\ exists e, bs = e ++ rest /\ length e = (4 * length ns)%nat /\ numbers 4 e ns.
Proof.
  induction fuel as [|f IH]; intros n bs ns rest Hf; cbn [rep_fuel].
  - assert (n = 0) as -> by lia. cbn. unfold pret. split.
    + intros [= <- <-]. split; [reflexivity|]. exists []. repeat split. constructor. cbn. lia.
    + intros (Hn & e & -> & He & Hns). destruct ns; [|cbn in Hn; lia]. destruct e; [reflexivity|discriminate].
  - destruct (N.eqb_spec n 0) as [->|Hn0].
    + unfold pret. split.
      * intros [= <- <-]. split; [reflexivity|]. exists []. repeat split. constructor. cbn. lia.
      * intros (Hn & e & -> & He & Hns). destruct ns; [|cbn in Hn; lia]. destruct e; [reflexivity|discriminate].
    + unfold pbind. change get_f32 with (get_le (N.of_nat 4)). split.
      * destruct (get_le (N.of_nat 4) bs) as [(v & r)| | |] eqn:E; try discriminate.
        change (get_le (N.of_nat 4)) with get_f32.
        destruct (rep_fuel get_f32 f (n - 1) r) as [(vs & r2)| | |] eqn:E2; try discriminate.
        unfold pret. intros [= <- <-]. apply get_le_ok in E as (d & Hd & -> & ->).
        apply IH in E2 as (Hn & e & -> & He & Hns); [|lia]. split; [cbn [length]; lia|].
        exists (d ++ e). rewrite app_assoc. split; [reflexivity|]. split; [rewrite app_length; cbn [length]; lia|].
        now constructor.
      * intros (Hn & e & -> & He & Hns). destruct ns as [|v vs]; [cbn in Hn; lia|].
        inversion Hns as [|d n' ns' Hd Hv r Hr E1 E2]. subst.
        rewrite <- app_assoc. assert (E : get_le (N.of_nat 4) (d ++ r ++ rest) = Ok (le d, r ++ rest)) by (apply get_le_ok; eauto).
        rewrite E. change (get_le (N.of_nat 4)) with get_f32.
        assert (E3 : rep_fuel get_f32 f (N.of_nat (length (le d :: vs)) - 1) (r ++ rest) = Ok (vs, rest)).
        { apply IH; [cbn [length] in *; lia|]. split; [cbn [length]; lia|]. exists r. split; [reflexivity|].
          split; [|exact Hr]. rewrite app_length in He. cbn [length] in He. lia. }
        rewrite E3. reflexivity.
Qed.
Lemma rep_short fuel : forall n bs ns rest, rep_fuel get_f32 fuel n bs = Ok (ns, rest) -> (N.to_nat n <= fuel)%nat.
Proof.
  induction fuel as [|f IH]; intros n bs ns rest; cbn [rep_fuel]; destruct (N.eqb_spec n 0) as [->|H]; try lia; try discriminate.
  unfold pbind. destruct (get_f32 bs) as [(v & r)| | |]; try discriminate.
  destruct (rep_fuel get_f32 f (n - 1) r) as [(vs & r2)| | |] eqn:E; try discriminate. intros _. apply IH in E. lia.
Qed.
Lemma rep_ok n bs ns rest : rep n get_f32 bs = Ok (ns, rest) <->
  n = N.of_nat (length ns) /\ exists e, bs = e ++ rest /\ length e = (4 * length ns)%nat /\ numbers 4 e ns.
Proof.
  unfold rep. split.
  - intros H. apply (rep_floats (S (length bs))); [now apply rep_short in H|exact H].
  - intros H. apply rep_floats; [|exact H]. destruct H as (-> & e & -> & He & _). rewrite app_length. lia.
Qed.
Lemma get_u8_cons n l : get_u8 (n :: l) = Ok (n, l).
Proof. apply (get_le_ok 1). exists [n]. split; [reflexivity|]. split; [reflexivity|]. cbn [le]. lia. Qed.
Lemma indents_iff o x : indent_distance_parse o = Ok x <-> optional o 0x1C001C12 indents x.
Proof.
  unfold indent_distance_parse. apply (then_iff (prop_vec _) _ raw); [apply vec_iff| |exact fun_vec].
  intros v ns. unfold indents, raw. split.
  - intros (a & b & c & d & n & -> & Hn & e & t & -> & He & Hns). eexists. split; [reflexivity|]. apply run_ok.
    exists t. unfold pbind. rewrite get_u8_cons.
    assert (E : advance 3 (a :: b :: c :: e ++ t) = Ok (tt, e ++ t)).
    { unfold advance, remaining. cbn [length]. destruct (N.ltb_spec (N.of_nat (S (S (S (length (e ++ t)))))) 3); [lia|reflexivity]. }
    rewrite E. apply rep_ok. split; [exact Hn|]. exists e. auto.
  - intros (d & -> & E). apply run_ok in E as (t & E). unfold pbind in E.
    destruct d as [|n d]; [discriminate E|].
    rewrite get_u8_cons in E.
    unfold advance, remaining in E. destruct (N.ltb_spec (N.of_nat (length d)) 3) as [H|H]; [discriminate E|].
    destruct d as [|a [|b [|c d]]]; try (cbn [length] in H; lia).
    change (skipn (N.to_nat 3) (a :: b :: c :: d)) with d in E.
    apply rep_ok in E as (Hn & e & -> & He & Hns).
    exists a, b, c, (e ++ t), n. split; [reflexivity|]. split; [exact Hn|]. exists e, t. auto.
Qed.
Lemma layout_iff id o x : layout_alignment_parse id o = Ok x <-> defaulted o id alignment None x.
Proof.
  unfold defaulted. destruct (stored o id) as [v|] eqn:Hs.
  - destruct v; try (unfold layout_alignment_parse, get_prop; unfold stored in Hs; rewrite Hs; cbn;
      split; [discriminate|]; intros (m & E & _); discriminate E).
    rewrite (layout_read _ _ _ Hs). unfold alignment.
    destruct (N.testbit n 31) eqn:Hb.
    + split; [intros [= <-]; exists n; auto|]. intros (m & [= <-] & [(_ & ->)|(E & _)]); [reflexivity|congruence].
    + destruct (halign_of (n mod 8)) as [h|e| |] eqn:Hh.
      * split.
        -- intros [= <-]. exists n. split; [reflexivity|]. right. split; [exact Hb|]. exists h.
           split; [now apply (decodes_ok _ _ _ _ _ (proj1 halign_decodes))|reflexivity].
        -- intros (m & [= <-] & [(E & _)|(_ & h' & Hin & ->)]); [congruence|].
           apply (decodes_ok _ _ _ _ _ (proj1 halign_decodes)) in Hin. rewrite Hin in Hh. now injection Hh as ->.
      * split; [discriminate|]. intros (m & [= <-] & [(E & _)|(_ & h' & Hin & ->)]); [congruence|].
        apply (decodes_ok _ _ _ _ _ (proj1 halign_decodes)) in Hin. congruence.
      * split; [discriminate|]. intros (m & [= <-] & [(E & _)|(_ & h' & Hin & ->)]); [congruence|].
        apply (decodes_ok _ _ _ _ _ (proj1 halign_decodes)) in Hin. congruence.
      * split; [discriminate|]. intros (m & [= <-] & [(E & _)|(_ & h' & Hin & ->)]); [congruence|].
        apply (decodes_ok _ _ _ _ _ (proj1 halign_decodes)) in Hin. congruence.
  - unfold layout_alignment_parse, get_prop. unfold stored in Hs. rewrite Hs. cbn. split; [now intros [= <-]|now intros ->].
Qed.
Lemma media_iff o x : file_type_parse o = Ok x <-> defaulted o 0x14001D24 media FtUnknown x.
Proof.
  unfold file_type_parse, defaulted, get_prop, stored. change P_IRecordMedia with 0x14001D24.
  destruct (oprops_get 0x14001D24 (ob_props o)) as [v|]; [|cbn; split; [now intros [= <-]|now intros ->]].
  unfold media. destruct v; try (cbn; split; [discriminate|]; intros [(E & _)|(E & _)]; discriminate E).
  cbn. destruct n as [|p]; [split; [discriminate|intros [(E & _)|(E & _)]; discriminate E]|].
  destruct p as [p|p|]; try destruct p as [p|p|]; split; try discriminate;
    try (intros [(E & _)|(E & _)]; discriminate E);
    try (intros [= <-]; auto); intros [(E & ->)|(E & ->)]; first [discriminate E|reflexivity].
Qed.
Lemma char_iff id o x : prop_char id o = Ok x <-> defaulted o id character None x.
Proof.
  unfold prop_char. rewrite bind_ok. unfold defaulted.
  assert (H := u16_iff id o). unfold optional in H. destruct (stored o id) as [v|].
  - split.
    + intros (c & Hc & E). apply H in Hc as (n & -> & ->). cbn in E. apply bind_ok in E as (r & E & [= <-]).
      apply bind_ok in E as (b & E & [= <-]). exists n. split; [reflexivity|].
      unfold utf16_char in E. apply bind_ok in E as (s & E & [= <-]). cbn in E.
      unfold is_high_surrogate, is_low_surrogate in E.
      destruct ((0xD800 <=? n) && (n <=? 0xDBFF)) eqn:E1; [discriminate E|].
      destruct ((0xDC00 <=? n) && (n <=? 0xDFFF)) eqn:E2; [discriminate E|].
      injection E as <-. split; [reflexivity|]. lia.
    + intros (n & -> & -> & Hn). exists (Some n). split; [apply H; exists n; split; reflexivity|].
      cbn. unfold utf16_char. cbn. unfold is_high_surrogate, is_low_surrogate.
      destruct ((0xD800 <=? n) && (n <=? 0xDBFF)) eqn:E1; [lia|].
      destruct ((0xDC00 <=? n) && (n <=? 0xDFFF)) eqn:E2; [lia|]. reflexivity.
  - split.
    + intros (c & Hc & E). apply H in Hc as ->. now injection E as <-.
    + intros ->. exists None. split; [now apply H|reflexivity].
Qed.
Lemma fun_words v a b : words v a -> words v b -> a = b.
Proof. intros (d & -> & Ha) (d' & [= <-] & Hb). eapply numbers_fun; [|eassumption|eassumption]. lia. Qed.
Lemma lossy_of : forall us, lossy us (decode_utf16_lossy us).
Proof.
  assert (H : forall n us, (length us < n)%nat -> lossy us (decode_utf16_lossy us)).
  { induction n as [|n IH]; intros us Hn; [lia|]. destruct us as [|u r]; [constructor|]. cbn [length] in Hn.
    cbn [decode_utf16_lossy]. unfold is_high_surrogate, is_low_surrogate.
    destruct ((0xD800 <=? u) && (u <=? 0xDBFF)) eqn:Eh.
    - destruct r as [|v r'].
      + apply lo_single; [left; unfold high; lia|discriminate|constructor].
      + destruct ((0xDC00 <=? v) && (v <=? 0xDFFF)) eqn:El.
        * apply lo_pair; [unfold high; lia|unfold low; lia|]. apply IH. cbn [length] in Hn. lia.
        * apply lo_single; [left; unfold high; lia|intros _ l [= <-]; unfold low; lia|apply IH; lia].
    - destruct ((0xDC00 <=? u) && (u <=? 0xDFFF)) eqn:El.
      + apply lo_single; [right; unfold low; lia|unfold high; lia|apply IH; lia].
      + apply lo_plain; [unfold high; lia|unfold low; lia|apply IH; lia]. }
  intros us. exact (H (S (length us)) us (Nat.lt_succ_diag_r _)).
Qed.
Lemma lossy_fun us a b : lossy us a -> lossy us b -> a = b.
Proof.
  intros Ha. revert b. induction Ha; intros b Hb.
  - now inversion Hb.
  - inversion Hb; subst; [f_equal; auto|unfold high in *; lia|].
    exfalso. match goal with K : high h -> _ |- _ => exact (K H l eq_refl H0) end.
  - inversion Hb; subst; [contradiction|f_equal; auto|tauto].
  - inversion Hb; subst; [|tauto|f_equal; auto].
    exfalso. match goal with K : high u -> _, A : high u, B : low ?l |- _ => exact (K A l eq_refl B) end.
Qed.
Lemma numbering_iff id o x : (let! v := prop_vec_u16 id o in opt_map_res list_format_of v) = Ok x <-> optional o id numbering x.
Proof.
  apply (then_iff (prop_vec_u16 id) id words); [apply words_iff| |exact fun_words].
  intros v s. unfold numbering. split.
  - intros (n & r & Hw & Hl). exists (n :: r). split; [exact Hw|]. cbn.
    now rewrite (lossy_fun _ _ _ Hl (lossy_of r)).
  - intros (ns & Hw & E). destruct ns as [|n r]; [discriminate E|].
    injection E as <-. exists n, r. split; [exact Hw|apply lossy_of].
Qed.
Lemma flags_iff id o x : rmap (skip 1) (prop_vec id o) = Ok x <-> optional o id column_flags x.
Proof.
  apply (rmap_iff (prop_vec id) id raw); [apply vec_iff| |exact fun_vec].
  intros v b. unfold column_flags, raw, skip. change (N.to_nat 1) with 1%nat. split.
  - intros [(-> & ->)|(n & ->)]; eexists; split; reflexivity.
  - intros (d & -> & ->). destruct d as [|n d]; [left; split; reflexivity|right; exists n; reflexivity].
Qed.
Lemma widths_iff id o x : rmap (fun d => u32_chunks (skip 1 d)) (prop_vec id o) = Ok x <-> optional o id column_widths x.
Proof.
  apply (rmap_iff (prop_vec id) id raw); [apply vec_iff| |exact fun_vec].
  intros v b. unfold column_widths, raw, skip. change (N.to_nat 1) with 1%nat. split.
  - intros [(-> & ->)|(n & d & -> & H)]; eexists; split; try reflexivity.
    eapply numbers_fun; [|eassumption|apply u32_chunks_numbers]. lia.
  - intros (d & -> & ->). destruct d as [|n d]; [left; split; reflexivity|right; exists n, d].
    split; [reflexivity|apply u32_chunks_numbers].
Qed.
Lemma dimension_ok d x : (let! r := (g <- guid_parse ;; lower <- get_u32 ;; upper <- get_u32 ;;
       pret (InkDimension g (i32_of lower) (i32_of upper))) d in Ok (fst r)) = Ok x <->
  exists g lo hi y z t, guid_parse d = Ok (g, lo ++ hi ++ t) /\ length lo = 4%nat /\ length hi = 4%nat /\
    signed (VU32 (le lo)) y /\ signed (VU32 (le hi)) z /\ x = InkDimension g y z.
Proof.
  unfold pbind, pret. change get_u32 with (get_le (N.of_nat 4)). split.
  - destruct (guid_parse d) as [(g & r)| | |] eqn:E; try discriminate.
    destruct (get_le (N.of_nat 4) r) as [(lo & r1)| | |] eqn:E1; try discriminate.
    destruct (get_le (N.of_nat 4) r1) as [(hi & r2)| | |] eqn:E2; try discriminate.
    cbn [rbind fst]. intros [= <-]. apply get_le_ok in E1 as (d1 & H1 & -> & ->). apply get_le_ok in E2 as (d2 & H2 & -> & ->).
    exists g, d1, d2. eexists. eexists. exists r2. split; [reflexivity|]. split; [exact H1|]. split; [exact H2|].
    split; [eexists; split; reflexivity|]. split; [eexists; split; reflexivity|]. now rewrite !i32_signed.
  - intros (g & lo & hi & y & z & t & E & H1 & H2 & (n & [= <-] & ->) & (m & [= <-] & ->) & ->). rewrite E.
    assert (E1 : get_le (N.of_nat 4) (lo ++ hi ++ t) = Ok (le lo, hi ++ t)) by (apply get_le_ok; eauto).
    assert (E2 : get_le (N.of_nat 4) (hi ++ t) = Ok (le hi, t)) by (apply get_le_ok; eauto).
    rewrite E1, E2. cbn [rbind fst]. now rewrite !i32_signed.
Qed.
Lemma firstn_app_len {A} (a b : list A) : firstn (length a) (a ++ b) = a.
Proof. rewrite firstn_app, firstn_all, Nat.sub_diag. cbn. apply app_nil_r. Qed.
Lemma skipn_app_len {A} (a b : list A) : skipn (length a) (a ++ b) = b.
Proof. rewrite skipn_app, skipn_all, Nat.sub_diag. reflexivity. Qed.
Lemma entry_run d : ink_dimension_entry d = (let! r := (g <- guid_parse ;; lower <- get_u32 ;; upper <- get_u32 ;;
       pret (InkDimension g (i32_of lower) (i32_of upper))) d in Ok (fst r)).
Proof. unfold ink_dimension_entry, run. destruct (pbind _ _ d) as [[]| | |]; reflexivity. Qed.
Lemma dimensions_ok fuel : forall d xs, (length d <= fuel)%nat ->
  map_res ink_dimension_entry (chunks_fuel fuel 32 d) = Ok xs <-> dimensions d xs.
Proof.
  induction fuel as [|f IH]; intros d xs Hf.
  - destruct d; [|cbn in Hf; lia]. cbn. split.
    + intros [= <-]. constructor. cbn. lia.
    + intros H. inversion H as [e He E1 E2|d g lo hi x y t r ys Hd Hg X1 X2 X3 X4 X5 E1 E2]; [reflexivity|].
      destruct d; [discriminate Hd|discriminate E1].
  - cbn [chunks_fuel]. destruct (Nat.ltb_spec (length d) 32) as [H|H].
    + cbn. split.
      * intros [= <-]. now constructor.
      * intros Hd. inversion Hd as [e He E1 E2|e g lo hi x y t r ys He Hg X1 X2 X3 X4 X5 E1 E2]; [reflexivity|].
        subst. rewrite app_length in H. lia.
    + cbn [map_res]. rewrite bind_ok. split.
      * intros (x & Hx & E). apply bind_ok in E as (ys & Hys & [= <-]).
        rewrite entry_run in Hx. apply dimension_ok in Hx as (g & lo & hi & y & z & t & E & H1 & H2 & H3 & H4 & ->).
        rewrite <- (firstn_skipn 32 d). econstructor; try eassumption; [apply firstn_length_le; lia|].
        apply IH; [rewrite skipn_length; lia|exact Hys].
      * intros Hd. inversion Hd as [e He E1 E2|e g lo hi x y t r ys He Hg H1 H2 H3 H4 H5 E1 E2]; [lia|].
        exists (InkDimension g x y).
        assert (X1 : firstn 32 (e ++ r) = e) by (rewrite <- He at 1; apply firstn_app_len).
        assert (X2 : skipn 32 (e ++ r) = r) by (rewrite <- He at 1; apply skipn_app_len). rewrite X1. split.
        -- rewrite entry_run. apply dimension_ok. exists g, lo, hi, x, y, t. repeat (split; [eassumption|]). reflexivity.
        -- rewrite X2.
           replace (map_res ink_dimension_entry (chunks_fuel f 32 r)) with (Ok ys); [reflexivity|].
           symmetry. apply IH; [|exact H5]. subst d. rewrite app_length in Hf. lia.
Qed.
Lemma dims_iff id o x : ink_dimensions_parse id o = Ok x <-> defaulted o id dimension_table [] x.
Proof.
  unfold ink_dimensions_parse. change (get_prop to_vec id o) with (prop_vec id o). rewrite bind_ok. unfold defaulted.
  assert (H := vec_iff id o). unfold optional in H. destruct (stored o id) as [v|].
  - split.
    + intros (c & Hc & E). apply H in Hc as (d & -> & ->). exists d. split; [reflexivity|].
      apply (dimensions_ok (length d)); [lia|exact E].
    + intros (d & -> & Hd). exists (Some d). split; [apply H; exists d; split; reflexivity|].
      apply (dimensions_ok (length d)); [lia|exact Hd].
  - split.
    + intros (c & Hc & E). apply H in Hc as ->. now injection E as <-.
    + intros ->. exists None. split; [now apply H|reflexivity].
Qed.

(** ** File names *)
Lemma unescape_of c b s : unescape c b s (replace_caret c b s).
Proof.
  remember (length s) as n eqn:Hn. revert s Hn. induction n as [n IH] using lt_wf_ind. intros s Hn.
  destruct s as [|x [|y r]].
  - constructor.
  - cbn. constructor; [intros (_ & E); discriminate E|constructor].
  - cbn [replace_caret]. destruct ((x =? 94) && (y =? c)) eqn:E.
    + apply andb_true_iff in E as (E1 & E2). apply N.eqb_eq in E1, E2. subst. constructor.
      apply (IH (length r)); [cbn in *; lia|reflexivity].
    + constructor.
      * intros (-> & [= ->]). rewrite !N.eqb_refl in E. discriminate E.
      * apply (IH (length (y :: r))); [cbn in *; lia|reflexivity].
Qed.
Lemma unescape_fun c b s a1 a2 : unescape c b s a1 -> unescape c b s a2 -> a1 = a2.
Proof.
  intros H. revert a2. induction H as [|r r' H IH|x r r' Hx H IH]; intros a2 H2.
  - now inversion H2.
  - inversion H2 as [|q q' Hq E1 E2|y q q' Hy Hq E1 E2]; subst.
    + f_equal. now apply IH.
    + exfalso. apply Hy. split; reflexivity.
  - inversion H2 as [|q q' Hq E1 E2|y q q' Hy Hq E1 E2]; subst.
    + exfalso. apply Hx. split; reflexivity.
    + f_equal. now apply IH.
Qed.
Lemma fun_text v a b : text v a -> text v b -> a = b.
Proof. intros (d & -> & Ha) (d' & [= <-] & Hb). congruence. Qed.
Lemma name_iff id o x : rmap (fun s => replace_caret 74 44 (replace_caret 77 43 s)) (prop_string id o) = Ok x <->
  optional o id escaped_name x.
Proof.
  apply (rmap_iff (prop_string id) id text); [apply string_iff| |exact fun_text].
  intros v s. unfold escaped_name. split.
  - intros (s0 & s1 & Ht & H1 & H2). exists s0. split; [exact Ht|].
    rewrite (unescape_fun _ _ _ _ _ (unescape_of 77 43 s0) H1). symmetry.
    apply (unescape_fun _ _ _ _ _ (unescape_of 74 44 s1) H2).
  - intros (s0 & Ht & ->). exists s0, (replace_caret 77 43 s0). split; [exact Ht|]. split; apply unescape_of.
Qed.

(** ** References and wrappers *)
Lemma req_ok {A} (r : res (option A)) a : req r = Ok a <-> r = Ok (Some a).
Proof. unfold req. destruct r as [[b|]| | |]; cbn; split; intro H; try discriminate; congruence. Qed.
Lemma dflt_ok {A} (d : A) r a : dflt d r = Ok a <-> r = Ok (Some a) \/ r = Ok None /\ a = d.
Proof.
  unfold dflt. destruct r as [[b|]| | |]; cbn; split; intro H; try discriminate;
    try (destruct H as [H|(H & ->)]; try discriminate); intuition congruence.
Qed.
Lemma required_of {A} (rd : res (option A)) o id (R : pvalue -> A -> Prop) a :
  (forall x, rd = Ok x <-> optional o id R x) -> req rd = Ok a <-> required o id R a.
Proof.
  intros H. rewrite req_ok, H. unfold optional, required. destruct (stored o id) as [v|].
  - split; [intros (b & Hb & [= <-]); eauto|]. intros (w & [= <-] & Ha). eauto.
  - split; [discriminate|]. intros (w & E & _). discriminate E.
Qed.
Lemma defaulted_of {A} (rd : res (option A)) o id (R : pvalue -> A -> Prop) d a :
  (forall x, rd = Ok x <-> optional o id R x) -> dflt d rd = Ok a <-> defaulted o id R d a.
Proof.
  intros H. rewrite dflt_ok, !H. unfold optional, defaulted. destruct (stored o id) as [v|].
  - split; [intros [(b & Hb & [= <-])|((b & _ & E) & _)]; [exact Hb|discriminate E]|].
    intros Ha. left. eauto.
  - split; [intros [E|(_ & ->)]; [discriminate E|reflexivity]|]. intros ->. auto.
Qed.
Lemma flag_iff id o b : flag_of id o = Ok b <-> defaulted o id boolean false b.
Proof. apply defaulted_of. apply bool_iff. Qed.
Lemma objects_cases id o x : prop_objects id o = Ok x ->
  stored o id = None /\ x = None \/ (exists v, stored o id = Some v) /\ exists l, x = Some l.
Proof.
  unfold prop_objects, get_prop, stored. destruct (oprops_get id (ob_props o)) as [v|]; cbn.
  - destruct (to_object_ids v) as [n|]; cbn; [|discriminate]. intros H. apply bind_ok in H as (off & _ & [= <-]).
    right. eauto.
  - intros [= <-]. auto.
Qed.
Lemma objects_absent id o : stored o id = None -> prop_objects id o = Ok None.
Proof. unfold prop_objects, get_prop, stored. now intros ->. Qed.
Lemma children_iff id o l : refs_of id o = Ok l <-> children o id l.
Proof.
  unfold refs_of, children, references. rewrite dflt_ok. destruct (stored o id) as [v|] eqn:Hs.
  - split; [|auto]. intros [H|(H & _)]; [exact H|]. apply objects_cases in H as [(E & _)|(_ & m & E)]; congruence.
  - rewrite (objects_absent _ _ Hs). split; [intros [E|(_ & ->)]; [discriminate E|reflexivity]|auto].
Qed.
Lemma references_iff id o l : req (prop_objects id o) = Ok l <-> references o id l.
Proof. apply req_ok. Qed.
Lemma reference_iff id o x : prop_object id o = Ok x <-> reference o id x.
Proof. reflexivity. Qed.
Lemma some_reference_iff id o x : req (prop_object id o) = Ok x <-> reference o id (Some x).
Proof. apply req_ok. Qed.
Lemma spaces_iff id o l : dflt [] (prop_spaces id o) = Ok l <-> spaces o id l.
Proof.
  unfold spaces. rewrite dflt_ok. destruct (stored o id) as [v|] eqn:Hs.
  - split; [|auto]. intros [H|(H & _)]; [exact H|]. exfalso. revert H.
    unfold prop_spaces, get_prop. unfold stored in Hs. rewrite Hs. cbn.
    destruct (to_object_space_ids v); cbn; [|discriminate]. intros H. apply bind_ok in H as (off & _ & E). discriminate E.
  - assert (E : prop_spaces id o = Ok None) by (unfold prop_spaces, get_prop; unfold stored in Hs; now rewrite Hs).
    rewrite E. split; [intros [E'|(_ & ->)]; [discriminate E'|reflexivity]|auto].
Qed.
Lemma kind_iff k o n u : kind_jcid k = n -> assert_kind k o = Ok u <-> ob_jcid o = n.
Proof.
  intros <-. unfold assert_kind. destruct u. destruct (N.eqb_spec (ob_jcid o) (kind_jcid k)); split; intros; congruence.
Qed.
Lemma map_res_ok {A B} (f : A -> res B) l ys : map_res f l = Ok ys <-> Forall2 (fun x y => f x = Ok y) l ys.
Proof.
  revert ys. induction l as [|a l IH]; intros ys; cbn.
  - split; [intros [= <-]; constructor|intros H; inversion H; reflexivity].
  - rewrite bind_ok. split.
    + intros (b & Hb & H). apply bind_ok in H as (bs & Hbs & [= <-]). constructor; [exact Hb|now apply IH].
    + intros H. inversion H as [|x y l1 l2 Hx Hl E1 E2]; subst. exists y. split; [exact Hx|].
      apply IH in Hl. now rewrite Hl.
Qed.
