(** Property theorems for paths as bytes (C95). *)
From Coq Require Import Lia.
From Verif Require Import Base Codec SpecCodec Package PropSet Store Props Nodes Doc Notebook SpecNotebook ExampleNotebook PropertiesNotebook PropertiesApi PropertiesStore SpecKinds SpecShelf PropertiesValid PropertiesBlame Report
  Unix SpecUnix PropertiesUnix Message SpecMessage MessageProofs PropertiesMessage Bytes SpecBytes BytesProofs.

(** ** C95 *)
(** Paths that are the UTF-8 of Unicode texts: the results and the errors of C93 and C94. *)
Theorem C95_unicode : forall sanitise h depth fuel B T t, spelled B T -> Forall scalar t ->
  b_notebook sanitise h depth fuel B (utf8 t) = m_notebook sanitise h depth fuel T t /\
  b_section h fuel B (utf8 t) = m_section h fuel T t.
Proof. exact (fun s h d fuel B T t H U => conj (notebook_u s h fuel B T H d t U) (section_u h fuel B T t H U)). Qed.
Print Assumptions C95_unicode.
Theorem C95_unicode_buffer : forall h fuel data n, Forall scalar n ->
  b_section_buffer h fuel data (utf8 n) = m_section_buffer h fuel data n.
Proof. exact buffer_u. Qed.
Print Assumptions C95_unicode_buffer.
(** Any directory, Unicode or not: the bytes made from an entry are those of the
    directory, a separator, and the UTF-8 of the names of the entry, which are proper.
    The name shown for it is the last of these names, with nothing replaced. *)
Theorem C95_entry : forall sanitise B base entry p, Forall scalar entry -> b_resolve sanitise B base entry = MGot p ->
  exists names last, Forall proper_name (names ++ [last]) /\ Forall scalar (concat (names ++ [last])) /\
    Forall (fun n => sanitise n = n) (names ++ [last]) /\ below base (map utf8 (names ++ [last])) p /\
    map Normal (names ++ [last]) = filter (fun c => negb (component_eqb c CurDir)) (components entry) /\
    t_file_name p = Some (utf8 last) /\ to_lossy (utf8 last) = last /\
    (tfs_exists B p = true -> exists b c, tfs_canonicalize B base = Some b /\ tfs_canonicalize B p = Some c /\
       starts_with (components c) (components b) = true).
Proof. exact entry_names. Qed.
Print Assumptions C95_entry.
(** Any path: an error is a proper one, it is never the one about entries that are not
    Unicode, and the path it names is the given one or one below its directory, with
    U+FFFD for what is not Unicode. *)
Theorem C95_errors : forall sanitise h depth fuel B p r, proper_listings B -> byte_files B ->
  b_notebook sanitise h depth fuel B p = MSaid r ->
  proper_report r /\ r <> TInvalid NotUnicode /\
  (r = TNotAToc (to_lossy p) \/ forall f, named r = Some f -> exists q, inside p q /\ f = to_lossy q).
Proof.
  exact (fun s h d fuel B p r PL BF E => match b_notebook_says s h fuel B PL BF d p r E with conj (conj X Y) Z => conj X (conj Y Z) end).
Qed.
Print Assumptions C95_errors.
Theorem C95_errors_section : forall h fuel B p data n r,
  (b_section h fuel B p = MSaid r -> proper_report r /\ r <> TInvalid NotUnicode /\ forall f, named r = Some f -> f = to_lossy p) /\
  (b_section_buffer h fuel data n = MSaid r -> proper_report r /\ r <> TInvalid NotUnicode /\ forall f, named r = Some f -> f = to_lossy n).
Proof.
  exact (fun h fuel B p data n r => conj
    (fun E => match b_section_says h fuel B p r E with conj (conj X Y) Z => conj X (conj Y Z) end)
    (fun E => match b_buffer_says h fuel data n r E with conj (conj X Y) Z => conj X (conj Y Z) end)).
Qed.
Print Assumptions C95_errors_section.
(** Decoding: strictly exactly the UTF-8 of Unicode texts; lossily always a Unicode text,
    the right one when there is one, and otherwise one with a U+FFFD in it. *)
Theorem C95_decode : forall b,
  (forall t, to_str b = Some t <-> Forall scalar t /\ b = utf8 t) /\
  Forall scalar (to_lossy b) /\
  (forall t, Forall scalar t -> b = utf8 t -> to_lossy b = t) /\
  ((forall t, Forall scalar t -> b <> utf8 t) -> In 0xFFFD (to_lossy b)).
Proof.
  intro b. split; [exact (to_str_iff b)|]. split; [exact (to_lossy_scalar b)|]. split; [intros t U ->; exact (lossy_utf8 t U)|]. intro H. apply to_str_none.
  destruct (to_str b) as [t|] eqn:E; [|reflexivity]. apply to_str_iff in E as (U & E). now elim (H t U).
Qed.
Print Assumptions C95_decode.

(** The sample notebook, with texts and with bytes. *)
Definition render (p : path) : text := slash :: joined (flat_map (fun c => match c with Normal n => [n] | _ => [] end) p).
Definition uni_fs : tfilesystem :=
  TFs (tfs_exists text_fs) (tfs_is_file text_fs) (fun t => option_map render (fs_canonicalize sample_fs (components t))) (tfs_read text_fs) (tfs_read_dir text_fs).
Definition byte_fs : tfilesystem :=
  let ask {A} (f : text -> A) (d : A) (b : bytes) := match to_str b with Some t => f t | None => d end in
  TFs (ask (tfs_exists uni_fs) false) (ask (tfs_is_file uni_fs) false)
    (fun b => option_map utf8 (ask (tfs_canonicalize uni_fs) None b))
    (ask (tfs_read uni_fs) None)
    (fun b => option_map (map (option_map utf8)) (ask (tfs_read_dir uni_fs) None b)).
Lemma scalar_dec t : forallb (fun c => (c <? 0xD800) || (0xE000 <=? c) && (c <? 0x110000)) t = true -> Forall scalar t.
Proof. rewrite forallb_forall, Forall_forall. unfold scalar. intros H x I. specialize (H x I). lia. Qed.
Lemma sample_render p c : fs_canonicalize sample_fs p = Some c -> components (render c) = c /\ Forall scalar (render c).
Proof.
  intro H. assert (K : In p (map fst sample_files ++ map fst sample_dirs) /\ p = c).
  { unfold sample_fs, plain_fs in H. cbn [fs_canonicalize] in H. destruct (_ || _) eqn:E; [|discriminate H]. injection H as <-. split; [|reflexivity]. apply in_app_iff. apply orb_true_iff in E as [E|E]; [left|right].
    - destruct (find _ sample_files) as [(q, b)|] eqn:X; [|discriminate E]. apply find_some in X as (X & Q). cbn [fst] in Q. apply path_eqb_eq in Q as ->. now apply (in_map fst) in X.
    - destruct (find _ sample_dirs) as [(q, b)|] eqn:X; [|discriminate E]. apply find_some in X as (X & Q). cbn [fst] in Q. apply path_eqb_eq in Q as ->. now apply (in_map fst) in X. }
  destruct K as (K & <-). cbn [map fst sample_files sample_dirs app In] in K.
  repeat (destruct K as [<-|K]; [split; [vm_compute; reflexivity|apply scalar_dec; vm_compute; reflexivity]|]). destruct K.
Qed.
Example C95_texts : takes_apart uni_fs sample_fs.
Proof.
  destruct C93_system. constructor; try assumption. intros t _. cbn [uni_fs tfs_canonicalize]. destruct (fs_canonicalize sample_fs (components t)) as [c|] eqn:E; cbn [option_map]; [|reflexivity].
  f_equal. exact (proj1 (sample_render _ _ E)).
Qed.
Example C95_system : spelled byte_fs uni_fs.
Proof.
  assert (D : forall t, Forall scalar t -> to_str (utf8 t) = Some t) by (intros t U; apply to_str_iff; auto).
  constructor; unfold byte_fs; cbn [tfs_exists tfs_is_file tfs_canonicalize tfs_read tfs_read_dir]; cbv zeta; try (intros t U; rewrite (D t U); reflexivity).
  - intros t c. cbn [uni_fs tfs_canonicalize]. destruct (fs_canonicalize sample_fs (components t)) as [x|] eqn:E; cbn [option_map]; [|discriminate]. intro H. injection H as <-. exact (proj2 (sample_render _ _ E)).
  - intros t d H. exact (proj1 C64_notebook_example (components t) d H).
  - intros t l n H I. cbn [uni_fs text_fs tfs_read_dir] in H. unfold sample_fs, plain_fs, sample_dirs in H. cbn [fs_read_dir find fst] in H.
    assert (P : Forall (Forall scalar) [name_toc; name_one; name_a; recycle_bin]) by (repeat (constructor; [apply scalar_dec; vm_compute; reflexivity|]); constructor).
    rewrite Forall_forall in P. apply P. revert H I.
    repeat match goal with |- context [path_eqb ?x ?y] => destruct (path_eqb x y) end; cbn [option_map snd map]; intro H; try discriminate H; injection H as <-; cbn [In]; intuition congruence.
Qed.
(** A directory whose name is the byte FF: its notebook is read; without a table of
    contents in the group, the error shows U+FFFD in place of that byte. *)
Definition odd_fs (dirs : list (path * list name)) : tfilesystem :=
  let F := plain_fs sample_files dirs in
  let home_of (b : bytes) := components (map (fun c => if c =? 255 then 110 else c) b) in
  TFs (fun b => fs_exists F (home_of b)) (fun b => fs_is_file F (home_of b)) (fun b => if fs_exists F (home_of b) then Some b else None)
    (fun b => fs_read F (home_of b)) (fun b => fs_read_dir F (home_of b)).
Definition odd_toc : bytes := [slash; 255; slash] ++ name_toc.
Example C95_example :
  Forall scalar toc_text /\ is_ok (bare (b_notebook same order_id 3 50 byte_fs toc_text)) = true /\
  (forall t, Forall scalar t -> odd_toc <> utf8 t) /\
  is_ok (bare (b_notebook same order_id 3 50 (odd_fs sample_dirs) odd_toc)) = true /\
  b_notebook same order_id 3 50 (odd_fs (swap_dir (home ++ [Normal name_a]) [name_one])) odd_toc =
    MSaid (TTocMissing ([slash; 0xFFFD; slash] ++ name_a)).
Proof.
  split; [apply scalar_dec; vm_compute; reflexivity|]. split; [vm_compute; reflexivity|].
  split; [intros t U E; assert (X : to_str odd_toc = Some t) by (apply to_str_iff; auto); vm_compute in X; discriminate X|]. computes.
Qed.
Example C95_listings : proper_listings (odd_fs sample_dirs) /\ byte_files (odd_fs sample_dirs).
Proof.
  split.
  - intros t l n H I. exact (ta_names _ _ C93_system (map (fun c => if c =? 255 then 110 else c) t) l n H I).
  - intros p d H. exact (proj1 C64_notebook_example _ d H).
Qed.
(** "a€" and an emoji; a cut emoji; an overlong form; a surrogate. *)
Example C95_decode_example :
  to_lossy [97; 0xE2; 0x82; 0xAC] = [97; 0x20AC] /\ to_str [0xF0; 0x9F; 0x98; 0x80] = Some [0x1F600] /\
  to_lossy [0xF0; 0x9F; 0x98; 97] = [0xFFFD; 97] /\ to_lossy [0xC0; 0x80] = [0xFFFD; 0xFFFD] /\
  to_lossy [0xED; 0xA0; 0x80] = [0xFFFD; 0xFFFD; 0xFFFD] /\ to_str [0xED; 0xA0; 0x80] = None.
Proof. computes. Qed.
