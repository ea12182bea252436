(** C64: everything that is read is a valid document. *)
From Coq Require Import Lia Floats.SpecFloat.
From Verif Require Import Base Codec SpecCodec Package PropSet Store Shapes Props Nodes Doc Notebook SpecDoc SpecValid SpecShelf RangeProofs3
  WriteProofs4 PropertiesWrite PropertiesStore ExampleNotebook PropertiesNotebook.

Theorem C64_section_valid : forall h fuel d file s, bytes_ok d -> plain file ->
  parse_section_buffer h fuel d file = Ok s -> section_ok s.
Proof. exact buffer_valid. Qed.
Print Assumptions C64_section_valid.

Theorem C64_section_file_valid : forall h fuel fs p s, holds_bytes fs -> (forall base n, p = base ++ [Normal n] -> plain n) ->
  parse_section_file h fuel fs p = Ok s -> section_ok s.
Proof. exact section_file_valid. Qed.
Print Assumptions C64_section_file_valid.

(** With C63: the sections that are read, up to the size limit of C63, are exactly the
    valid ones. *)
Theorem C64_exact : forall s file, plain file -> N.of_nat (section_size s) < 2 ^ 21 ->
  ((exists h fuel d, bytes_ok d /\ parse_section_buffer h fuel d file = Ok s) <-> section_ok s).
Proof.
  intros s file P L. split.
  - intros (h & fuel & d & B & E). exact (buffer_valid h fuel d file s B P E).
  - intro V. destruct (section_written s V L) as (d & B & H). destruct (H order_id file) as (k & Hk). exists order_id, k, d. auto.
Qed.
Print Assumptions C64_exact.

(** One section that is read, and three that never are: a page level beyond 32 bits, a
    name with ".one" at its end, an image without data that has an extension. *)
Definition with_page (p : page) : section := Section_ [] [[p]] None.
Example C64_example :
  (exists d k, bytes_ok d /\ parse_section_buffer order_id k d [97] = Ok a_section) /\
  (forall h fuel d, bytes_ok d -> parse_section_buffer h fuel d [97] <> Ok (with_page (Page None (2 ^ 31) None None []))) /\
  (forall h fuel d, bytes_ok d -> parse_section_buffer h fuel d [97] <> Ok (Section_ [97; 46; 111; 110; 101] [] None)) /\
  (forall h fuel d g, bytes_ok d -> ig_data g = None -> ig_extension g <> None ->
     parse_section_buffer h fuel d [97] <> Ok (with_page (Page None 0 None None [PcImage g]))).
Proof.
  assert (P : plain [97]) by (split; constructor; [left; reflexivity|constructor|discriminate|constructor]).
  refine (conj _ (conj _ (conj _ _))).
  - destruct C63_example as [V L]. destruct (section_written a_section V L) as (d & B & H). destruct (H order_id [97]) as (k & Hk).
    exists d, k. auto.
  - intros h fuel d B E. apply (buffer_valid _ _ _ _ _ B P) in E. destruct E as (_ & _ & _ & ((_ & (_ & E) & _) & _) & _).
    cbn in E. lia.
  - intros h fuel d B E. apply (buffer_valid _ _ _ _ _ B P) in E. destruct E as (_ & E & _). exact (E [97] eq_refl).
  - intros h fuel d g B G1 G2 E. apply (buffer_valid _ _ _ _ _ B P) in E.
    destruct E as (_ & _ & _ & ((_ & _ & _ & _ & (_ & _ & E & _) & _) & _) & _). auto.
Qed.

(** Notebooks: no matter what the files hold. *)
Theorem C64_notebook_valid : forall sanitise h depth fuel fs p nb, holds_bytes fs ->
  parse_notebook sanitise h depth fuel fs p = Ok nb -> notebook_ok sanitise nb.
Proof. exact notebook_valid. Qed.
Print Assumptions C64_notebook_valid.

Example C64_notebook_example : holds_bytes sample_fs /\
  exists s c, parse_notebook same order_id 3 50 sample_fs (home ++ [Normal name_toc]) = Ok (Notebook_ [EnGroup name_a []; EnSection s; EnSection s] c).
Proof.
  split.
  - intros p bs H. apply plain_read in H.
    assert (X : forall d, forallb (fun b => b <? 256) d = true -> bytes_ok d).
    { intros d E. apply Forall_forall. intros b I. rewrite forallb_forall in E. apply N.ltb_lt. auto. }
    repeat (destruct H as [<-|H]; [apply X; vm_compute; reflexivity|]). destruct H.
  - destruct C51_example as (s & c & E & _). exists s, c. exact E.
Qed.
