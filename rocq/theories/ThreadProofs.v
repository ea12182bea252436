From Coq Require Import Lia.
From Verif Require Import Base Notebook SpecNotebook Timed SpecTimed SpecThreads TimedProofs TimedProofs2 TimedProofs3.
Local Open Scope nat_scope.

Lemma update_nth {A} (l : list A) i j f : nth_error (update l i f) j = if Nat.eqb i j then option_map f (nth_error l j) else nth_error l j.
Proof.
  revert i j. induction l as [|a l IH]; intros [|i] [|j]; cbn; auto. now destruct (Nat.eqb i j).
Qed.
(** A thread is where it would be, had it run alone at its moments. *)
Fixpoint alone {A} (w : world) (ms : list nat) (m : io A) : io A :=
  match ms with [] => m | t :: ms => alone w ms (advance (w t) m) end.
Lemma share_alone {A} w sched : forall t (ths : list (io A)) i,
  nth_error (share w t sched ths) i = option_map (alone w (moments t sched i)) (nth_error ths i).
Proof.
  induction sched as [|j s IH]; intros t ths i; cbn [share moments]; [now destruct (nth_error ths i)|].
  rewrite IH, update_nth. destruct (Nat.eqb j i); [|reflexivity]. destruct (nth_error ths i); reflexivity.
Qed.
Lemma alone_done {A} w ms (r : res A) : alone w ms (Done r) = Done r.
Proof. induction ms; cbn; auto. Qed.
Lemma run_ext {A} (w w' : world) (m : io A) : forall t t', (forall k, w (t + k) = w' (t' + k)) ->
  run_io w t m = run_io w' t' m /\ asked w t m = asked w' t' m.
Proof.
  induction m as [r|q k IH]; intros t t' H; [split; reflexivity|]. cbn. pose proof (H 0) as E. rewrite !Nat.add_0_r in E. rewrite E.
  destruct (IH (reply (w' t') q) (S t) (S t')) as (E1 & E2); [|split; [exact E1|now f_equal]].
  intros i. specialize (H (S i)). now rewrite !Nat.add_succ_r in H.
Qed.
Lemma run_seen_cons {A} w t0 ms (m : io A) t : run_io (seen_at w (t0 :: ms)) (S t) m = run_io (seen_at w ms) t m /\
  asked (seen_at w (t0 :: ms)) (S t) m = asked (seen_at w ms) t m.
Proof. apply run_ext. intros k. reflexivity. Qed.
Lemma alone_run {A} w ms : forall (m : io A),
  (length (asked (seen_at w ms) 0 m) <= length ms -> alone w ms m = Done (run_io (seen_at w ms) 0 m)) /\
  (forall r, alone w ms m = Done r -> run_io (seen_at w ms) 0 m = r).
Proof.
  induction ms as [|t ms IH]; intros m; cbn [alone].
  - split; [|now intros r ->]. destruct m as [r|q k]; cbn; [reflexivity|lia].
  - destruct m as [r|q k].
    + cbn [advance]. rewrite alone_done. split; [reflexivity|]. now intros r' [= ->].
    + cbn [advance asked run_io length]. change (seen_at w (t :: ms) 0) with (w t). destruct (IH (k (reply (w t) q))) as (IH1 & IH2).
      destruct (run_seen_cons w t ms (k (reply (w t) q)) 0) as (E1 & E2). rewrite E1, E2. split; [intros L; apply IH1; lia|exact IH2].
Qed.

Lemma thread_result {A} w t sched (ths : list (io A)) i m r :
  nth_error ths i = Some m -> nth_error (share w t sched ths) i = Some (Done r) ->
  run_io (seen_at w (moments t sched i)) 0 m = r.
Proof. intros H. rewrite share_alone, H. cbn. intros [= E]. now apply alone_run in E. Qed.
Lemma thread_ends {A} w t sched (ths : list (io A)) i m :
  nth_error ths i = Some m -> length (asked (seen_at w (moments t sched i)) 0 m) <= length (moments t sched i) ->
  nth_error (share w t sched ths) i = Some (Done (run_io (seen_at w (moments t sched i)) 0 m)).
Proof. intros H L. rewrite share_alone, H. cbn. f_equal. now apply alone_run. Qed.
Lemma moments_in sched : forall t i k, In k (moments t sched i) <-> exists j, nth_error sched j = Some i /\ k = t + j.
Proof.
  induction sched as [|j s IH]; intros t i k; cbn [moments].
  - split; [intros []|]. intros ([|j] & H & _); discriminate H.
  - assert (E : In k (moments (S t) s i) <-> exists j', nth_error (j :: s) (S j') = Some i /\ k = t + S j').
    { rewrite IH. split; intros (x & H & ->); exists x; cbn in *; (split; [exact H|lia]). }
    destruct (Nat.eqb_spec j i) as [->|Hn].
    + cbn [In]. rewrite E. split.
      * intros [<-|(x & H)]; [exists 0; split; [reflexivity|lia]|eauto].
      * intros ([|x] & H & ->); [left; lia|right; eauto].
    + rewrite E. split; [intros (x & H); eauto|]. intros ([|x] & H & ->); [injection H as H; congruence|eauto].
Qed.
Lemma threads_still sanitise h depth fuel fs t sched ps i p r :
  nth_error ps i = Some p ->
  nth_error (share (fun _ => fs) t sched (map (io_notebook sanitise h depth fuel) ps)) i = Some (Done r) ->
  r = parse_notebook sanitise h depth fuel fs p.
Proof.
  intros Hp H. eapply thread_result in H; [|rewrite nth_error_map, Hp; reflexivity]. rewrite <- H. apply (stands_still sanitise h fs 0).
Qed.
Lemma threads_apart sanitise h depth fuel w t sched sched' ps ps' i p :
  nth_error ps i = Some p -> nth_error ps' i = Some p -> moments t sched i = moments t sched' i ->
  nth_error (share w t sched (map (io_notebook sanitise h depth fuel) ps)) i =
  nth_error (share w t sched' (map (io_notebook sanitise h depth fuel) ps')) i.
Proof. intros H H' E. rewrite !share_alone, !nth_error_map, H, H', E. reflexivity. Qed.
