(** Property theorems for the program with arguments as bytes (C96). *)
From Verif Require Import Base Codec SpecCodec Package PropSet Store Props Nodes Doc Notebook SpecNotebook ExampleNotebook PropertiesNotebook PropertiesApi PropertiesStore Cli SpecCli PropertiesBlame
  Unix SpecUnix PropertiesUnix Message SpecMessage Bytes SpecBytes PropertiesBytes Main MainProofs.

(** ** C96 *)
(** What is printed, for any arguments and any file system: a notebook or a section, of
    the path in the second argument. Both arguments are Unicode then. *)
Theorem C96_prints : forall sanitise h depth fuel B args v, main_bytes sanitise h depth fuel B args = Ok v <->
  exists prog path rest, args = utf8 prog :: utf8 path :: rest /\ Forall scalar prog /\ Forall scalar path /\
    ((names_toc path /\ exists n, v = PrNotebook n /\ b_notebook sanitise h depth fuel B (utf8 path) = MGot n) \/
     (~ names_toc path /\ exists s, v = PrSection s /\ b_section h fuel B (utf8 path) = MGot s)).
Proof. exact main_prints. Qed.
Print Assumptions C96_prints.
(** Without two Unicode arguments the program panics, whatever the file system holds. *)
Theorem C96_usage : forall sanitise h depth fuel B args,
  (forall prog path rest, Forall scalar prog -> Forall scalar path -> args <> utf8 prog :: utf8 path :: rest) ->
  main_bytes sanitise h depth fuel B args = Panic.
Proof. exact main_usage. Qed.
Print Assumptions C96_usage.
(** Further arguments do not matter, even if they are not Unicode. A failure is a panic. *)
Theorem C96_rest : forall sanitise h depth fuel B prog path rest rest',
  main_bytes sanitise h depth fuel B (prog :: path :: rest) = main_bytes sanitise h depth fuel B (prog :: path :: rest').
Proof. exact main_rest. Qed.
Print Assumptions C96_rest.
Theorem C96_no_error : forall sanitise h depth fuel B args e, main_bytes sanitise h depth fuel B args <> Err e.
Proof. exact main_no_error. Qed.
Print Assumptions C96_no_error.
(** On Unicode arguments and files: the program of C69. *)
Theorem C96_unicode : forall sanitise h depth fuel B T F prog path rest, spelled B T -> takes_apart T F -> plain path ->
  Forall scalar prog -> Forall scalar path ->
  main_bytes sanitise h depth fuel B (utf8 prog :: utf8 path :: rest) = cli_main sanitise h depth fuel F (prog :: path :: rest).
Proof. exact main_agrees. Qed.
Print Assumptions C96_unicode.

(** The sample notebook and one of its sections; the directory FF, which no argument can
    name; an odd name of the program; an odd third argument. *)
Example C96_example :
  (exists nb, main_bytes same order_id 3 50 byte_fs [[112]; toc_text] = Ok (PrNotebook nb) /\ length (nb_entries nb) = 3%nat) /\
  (exists s, main_bytes same order_id 3 50 byte_fs [[112]; [slash; 110; slash] ++ name_one; [255]] = Ok (PrSection s) /\ se_display_name s = name_a) /\
  main_bytes same order_id 3 50 (odd_fs sample_dirs) [[112]; odd_toc] = Panic /\
  is_ok (bare (b_notebook same order_id 3 50 (odd_fs sample_dirs) odd_toc)) = true /\
  main_bytes same order_id 3 50 byte_fs [[255]; toc_text] = Panic /\
  main_bytes same order_id 3 50 byte_fs [[112]] = Panic.
Proof.
  split; [eexists; split; vm_compute; reflexivity|]. split; [eexists; split; vm_compute; reflexivity|]. computes.
Qed.
Example C96_usage_example : forall prog path rest, Forall scalar prog -> Forall scalar path -> [[112]; odd_toc] <> utf8 prog :: utf8 path :: rest.
Proof.
  intros prog path rest A P E. injection E as _ E _. destruct C95_example as (_ & _ & N & _). exact (N path P E).
Qed.
(** The hypotheses of C96_unicode, on the sample. *)
Example C96_unicode_example : takes_apart uni_fs sample_fs /\ spelled byte_fs uni_fs /\ plain toc_text /\ Forall scalar toc_text.
Proof. exact (conj C95_texts (conj C95_system (conj (proj1 C93_plain) (proj1 C95_example)))). Qed.
