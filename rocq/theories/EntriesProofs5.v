(** How often the file system is asked, whatever it answers. *)
From Coq Require Import Lia Arith.
From Verif Require Import Base Codec Package PropSet Store Nodes NodesProofs Doc SpecNodes SpecNotebook Notebook SpecSize SizeProofs SpecWeight WeightProofs Timed SpecTimed TimedProofs SpecAccess AccessProofs
  SpecEntries EntriesProofs.
Local Open Scope nat_scope.

Section Cost.
  Variable w : world.
  Definition costs {A} (m : io A) (c : nat) : Prop := forall t, length (asked w t m) <= c.
  Lemma costs_done {A} (r : res A) : costs (Done r) 0.
  Proof. intro t. apply le_n. Qed.
  Lemma costs_bind {A B} (m : io A) (f : A -> io B) a b : costs m a -> (forall t x, run_io w t m = Ok x -> costs (f x) b) -> costs (ibind m f) (a + b).
  Proof.
    intros H K t. rewrite asked_bind, app_length. specialize (H t). destruct (run_io w t m) eqn:E; cbn [length]; [specialize (K t _ E (t + steps_of w t m))|..]; lia.
  Qed.
  Lemma costs_ask {B} q (f : answer q -> io B) b : (forall t, costs (f (reply (w t) q)) b) -> costs (ibind (ask q) f) (1 + b).
  Proof. intro H. apply costs_bind; [intro t; apply le_n|]. intros t x E. injection E as <-. apply H. Qed.
  Lemma costs_res {A B} (r : res A) (f : A -> io B) b : (forall x, r = Ok x -> costs (f x) b) -> costs (ibind (Done r) f) b.
  Proof. intro H. apply (costs_bind _ _ 0); [apply costs_done|]. intros t x E. now apply H. Qed.
  Lemma costs_le {A} (m : io A) a b : costs m a -> a <= b -> costs m b.
  Proof. intros H L t. specialize (H t). lia. Qed.
  Lemma costs_imap {A B} (f : A -> io B) c l : (forall x, costs (f x) c) -> costs (imap f l) (c * length l).
  Proof.
    intro H. induction l as [|x l IH]; cbn [imap length]; [apply (costs_le _ 0); [apply costs_done|lia]|].
    apply (costs_le _ (c + (c * length l + 0))); [|lia]. apply costs_bind; [apply H|]. intros t y _. apply costs_bind; [exact IH|]. intros t' ys _. apply costs_done.
  Qed.
  Lemma imap_length {A B} (f : A -> io B) l : forall t ys, run_io w t (imap f l) = Ok ys -> length ys = length l.
  Proof.
    induction l as [|x l IH]; intros t ys H; cbn [imap] in H; [injection H as <-; reflexivity|].
    apply ok_bind in H as (y & _ & H & _). apply ok_bind in H as (zs & Hz & H & _). injection H as <-. cbn [length]. f_equal. exact (IH _ _ Hz).
  Qed.
  Lemma costs_entries f c ps : (forall p, costs (f p) c) -> costs (io_entries f ps) ((1 + c) * length ps).
  Proof.
    intro H. induction ps as [|p ps IH]; cbn [io_entries length]; [apply (costs_le _ 0); [apply costs_done|lia]|].
    apply (costs_le _ (1 + (c + ((1 + c) * length ps + 0)))); [|nia]. apply costs_ask. intro t. destruct (_ && _).
    - apply costs_bind; [apply H|]. intros t' e _. apply costs_bind; [exact IH|]. intros t'' es _. apply costs_done.
    - eapply costs_le; [exact IH|]. lia.
  Qed.
End Cost.

Lemma asked_always sanitise h fuel w n :
  (forall i p bs, fs_read (w i) p = Some bs -> length bs <= n /\ forall st, open_store h fuel bs = Ok st -> st_schema st = toc_schema -> toc_tree (st_data_root st)) -> 1 <= n ->
  forall depth t p, length (asked w t (io_notebook sanitise h depth fuel p)) <= 7 * (2 * n) ^ depth.
Proof.
  intros A N depth. enough (K : forall p, costs w (io_notebook sanitise h depth fuel p) (7 * (2 * n) ^ depth)) by (intros t p; apply K).
  induction depth as [|depth IH]; intro p; cbn [io_notebook]; [apply (costs_le _ _ 0); [apply costs_done|lia]|].
  assert (P : 1 <= (2 * n) ^ depth) by (clear - N; induction depth as [|d IHd]; cbn [Nat.pow]; [lia|nia]).
  apply (costs_le _ _ (1 + (3 * n + ((1 + (2 + 7 * (2 * n) ^ depth)) * n + 0)))); [|cbn [Nat.pow]; nia].
  apply costs_ask. intro i. cbn [reply]. apply costs_res. intros bs Hb. destruct (fs_read (w i) p) as [bs'|] eqn:R; [|discriminate Hb]. injection Hb as ->.
  destruct (A i p bs R) as (L & T). apply costs_res. intros st Hs. destruct (N.eqb _ _) eqn:E; [|apply (costs_le _ _ 0); [apply costs_done|lia]]. apply N.eqb_eq in E.
  apply costs_res. intros base _. apply costs_res. intros (names, c) Ht.
  pose proof (names_bound _ _ _ _ (T st Hs E) Ht) as B. apply objects_bound in B. destruct (open_light h fuel bs st Hs (st_data_root st) (or_introl eq_refl)) as (Lt & _).
  assert (Ln : length names <= n) by lia.
  apply costs_bind.
  { apply (costs_le _ _ (3 * length names)); [|lia]. apply costs_imap. intros x t. exact (proj2 (resolve_reads sanitise w base x t)). }
  intros t ps Hps. apply imap_length in Hps. apply costs_bind; [|intros; apply costs_done].
  apply (costs_le _ _ ((1 + (2 + 7 * (2 * n) ^ depth)) * length ps)); [|apply Nat.mul_le_mono_l; lia]. apply costs_entries. intro q.
  apply (costs_le _ _ (1 + (1 + 7 * (2 * n) ^ depth))); [|lia]. apply costs_ask. intro j. destruct (reply _ _).
  - apply (costs_le _ _ (1 + 0)); [|lia]. apply (costs_bind _ _ _ 1 0); [|intros; apply costs_done]. unfold io_section. apply (costs_ask _ _ _ 0). intro.
    apply costs_res. intros. apply costs_res. intros. destruct (N.eqb _ _); [|apply costs_done]. apply costs_res. intros. apply costs_done.
  - apply costs_res. intros dn _. apply costs_ask. intro i'. apply costs_res. intros files _. apply costs_res. intros toc _.
    apply (costs_le _ _ (7 * (2 * n) ^ depth + 0)); [|lia]. apply costs_bind; [apply IH|]. intros. apply costs_done.
Qed.
