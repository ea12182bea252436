(** C76: one parser, several threads. *)
From Verif Require Import Base Store Doc Notebook SpecNotebook ExampleNotebook PropertiesStore PropertiesNotebook
  Timed SpecTimed SpecThreads ThreadProofs ExampleTimed.

(** Whatever the schedule and the other threads do: the result of a thread is that of
    the same call made alone, at the moments at which the thread moved. *)
Theorem C76_result : forall A w t schedule (threads : list (io A)) i m r,
  nth_error threads i = Some m -> nth_error (share w t schedule threads) i = Some (Done r) ->
  run_io (seen_at w (moments t schedule i)) 0 m = r.
Proof. exact @thread_result. Qed.
Print Assumptions C76_result.
(** Those are the moments the schedule gives it. *)
Theorem C76_moments : forall schedule t i k,
  In k (moments t schedule i) <-> exists j, nth_error schedule j = Some i /\ k = (t + j)%nat.
Proof. exact moments_in. Qed.
Print Assumptions C76_moments.
(** No thread waits for another: one that moved as often as it has questions is done. *)
Theorem C76_ends : forall A w t schedule (threads : list (io A)) i m,
  nth_error threads i = Some m ->
  (length (asked (seen_at w (moments t schedule i)) 0 m) <= length (moments t schedule i))%nat ->
  nth_error (share w t schedule threads) i = Some (Done (run_io (seen_at w (moments t schedule i)) 0 m)).
Proof. exact @thread_ends. Qed.
Print Assumptions C76_ends.
(** What the other threads read, and how they are scheduled, does not matter. *)
Theorem C76_apart : forall sanitise h depth fuel w t schedule schedule' ps ps' i p,
  nth_error ps i = Some p -> nth_error ps' i = Some p -> moments t schedule i = moments t schedule' i ->
  nth_error (share w t schedule (map (io_notebook sanitise h depth fuel) ps)) i =
  nth_error (share w t schedule' (map (io_notebook sanitise h depth fuel) ps')) i.
Proof. exact threads_apart. Qed.
Print Assumptions C76_apart.
(** If the files do not change, every thread gets the notebook it asked for. *)
Theorem C76_still : forall sanitise h depth fuel fs t schedule ps i p r,
  nth_error ps i = Some p ->
  nth_error (share (fun _ => fs) t schedule (map (io_notebook sanitise h depth fuel) ps)) i = Some (Done r) ->
  r = parse_notebook sanitise h depth fuel fs p.
Proof. exact threads_still. Qed.
Print Assumptions C76_still.
(** Three threads taking turns, one of them on a file that is no table of contents. *)
Definition turns (n : nat) : list nat := concat (repeat [0; 1; 2]%nat n).
Definition done_ok {A} (m : option (io A)) : bool := match m with Some (Done (Ok _)) => true | _ => false end.
Example C76_example :
  let ps := [toc_path_; home ++ [Normal name_one]; home ++ [Normal name_a; Normal name_toc]] in
  let after := share (fun _ => sample_fs) 0 (turns 26) (map (io_notebook same order_id 3 50) ps) in
  done_ok (nth_error after 0) = true /\ nth_error after 1 = Some (Done (Err NotATocFile)) /\ done_ok (nth_error after 2) = true /\
  done_ok (nth_error (share (fun _ => sample_fs) 0 (turns 25) (map (io_notebook same order_id 3 50) ps)) 0) = false.
Proof. cbn zeta. computes. Qed.
