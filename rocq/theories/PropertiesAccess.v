(** Property theorems: which files are opened (C79). *)
From Coq Require Import Lia.
From Verif Require Import Base Codec Package PropSet Store Props Nodes Doc SpecCodec SpecStore SpecNodes SpecDoc DocProofs5
  Notebook SpecNotebook NotebookProofs2 NotebookProofs3 OnceProofs ExampleFile ExampleSection ExampleNotebook
  PropertiesStore PropertiesDoc PropertiesNotebook SpecKinds SpecBlame PropertiesBlame
  Timed SpecTimed TimedProofs TimedProofs2 TimedProofs3 ExampleTimed SpecAccess AccessProofs.

(** ** C79 *)
(** Whatever happens meanwhile, a notebook that is returned took one opened file for
    itself and one for each of its sections and section groups. *)
Theorem C79_one_file_each : forall sanitise h w t depth fuel p nb,
  run_io w t (io_notebook sanitise h depth fuel p) = Ok nb ->
  length (reads (asked w t (io_notebook sanitise h depth fuel p))) = S (all_parts (nb_entries nb)).
Proof. exact (fun s h w t d f p nb => notebook_count s h w f d t p nb). Qed.
Print Assumptions C79_one_file_each.
(** If nothing changes meanwhile: they are the files [opened] describes, in its order,
    and the file system is asked no more than seven times for a listed name. *)
Theorem C79_order : forall sanitise h fs t depth fuel p nb l k,
  parse_notebook sanitise h depth fuel fs p = Ok nb -> opened sanitise h fs p l k ->
  reads (asked (fun _ => fs) t (io_notebook sanitise h depth fuel p)) = l /\
  (length (asked (fun _ => fs) t (io_notebook sanitise h depth fuel p)) <= 7 * k + 1)%nat /\
  length l = S (all_parts (nb_entries nb)).
Proof. exact opened_is. Qed.
Print Assumptions C79_order.
Theorem C79_described : forall sanitise h fs depth fuel p nb,
  parse_notebook sanitise h depth fuel fs p = Ok nb -> exists l k, opened sanitise h fs p l k.
Proof. exact opened_some. Qed.
Print Assumptions C79_described.
Theorem C79_one_description : forall sanitise h fs p l k l' k',
  opened sanitise h fs p l k -> opened sanitise h fs p l' k' -> l = l' /\ k = k'.
Proof. exact opened_fun. Qed.
Print Assumptions C79_one_description.
(** Whatever happens meanwhile: a file or directory that cannot be read, or is not a
    OneNote file, is the last thing looked at, and it is the error of the call. *)
Theorem C79_stops : forall sanitise h w t depth fuel p i q e,
  nth_error (asked w t (io_notebook sanitise h depth fuel p)) i = Some q -> fails h (w (t + i)%nat) fuel q e ->
  run_io w t (io_notebook sanitise h depth fuel p) = Err e /\
  length (asked w t (io_notebook sanitise h depth fuel p)) = S i.
Proof. exact (fun s h w t d f p i q e => fast_notebook s h f d p w t i q e). Qed.
Print Assumptions C79_stops.
(** The sample: a group, and a section listed twice in two ways; then the same without the file of the group's
    table of contents, where reading stops. *)
Example C79_example :
  let nb := io_notebook same order_id 3 50 toc_path_ in
  let w := fun _ : nat => sample_fs in
  let w' := fun _ : nat => plain_fs (drop_file (home ++ [Normal name_a; Normal name_toc])) sample_dirs in
  reads (asked w 0 nb) =
    [toc_path_; home ++ [Normal name_a; Normal name_toc]; home ++ [Normal name_one]; home ++ [Normal name_one]] /\
  (exists r, run_io w 0 nb = Ok r /\ all_parts (nb_entries r) = 3%nat) /\
  reads (asked w' 0 nb) = [toc_path_; home ++ [Normal name_a; Normal name_toc]] /\
  nth_error (asked w' 0 nb) 17 = Some (QRead (home ++ [Normal name_a; Normal name_toc])).
Proof. cbv zeta. split; [vm_compute; reflexivity|]. split; [eexists; split; vm_compute; reflexivity|]. computes. Qed.
