(** How large a notebook can be. *)
From Coq Require Import Lia Arith.
From Verif Require Import Base Codec Package PropSet Store StoreProofs Nodes NodesProofs Doc SpecNodes SpecNotebook Notebook SpecSize SizeProofs SpecWeight SpecBulk BulkProofs SpecEntries EntriesProofs.
Local Open Scope nat_scope.

Lemma notebook_size sanitise h fuel fs n m :
  (forall p bs, fs_read fs p = Some bs -> length bs <= n /\ forall st, open_store h fuel bs = Ok st ->
     (st_schema st = toc_schema -> toc_tree (st_data_root st)) /\ forall cell sp, object_space st cell = Some sp -> tree sp) ->
  (forall p f, fs_exists fs p = true -> file_name p = Some f -> length f <= m) -> 1 <= n ->
  forall depth p nb, parse_notebook sanitise h depth fuel fs p = Ok nb -> notebook_bulk nb <= (2 * n) ^ depth * (1 + m + 16 * (n + 2) ^ 5).
Proof.
  intros A M N. set (U := 1 + m + 16 * (n + 2) ^ 5). induction depth as [|depth IH]; intros p nb H; [discriminate H|].
  destruct (fs_read fs p) as [bs|] eqn:R; [|cbn [parse_notebook] in H; rewrite R in H; discriminate H].
  destruct (A p bs R) as (L & T). pose proof (entries_bound _ _ _ _ _ _ _ _ (fun st E => proj1 (T st E)) H R) as B. unfold notebook_bulk.
  assert (P : 1 <= (2 * n) ^ depth) by (clear - N; induction depth as [|d IHd]; cbn [Nat.pow]; [lia|nia]).
  etransitivity; [apply (total_le _ (2 * ((2 * n) ^ depth * U)))|].
  2:{ cbn [Nat.pow]. transitivity (n * (2 * ((2 * n) ^ depth * U))); [apply Nat.mul_le_mono_r; lia|]. apply Nat.eq_le_incl. ring. }
  intros e I. cbn [parse_notebook] in H. rewrite R in H. cbn [ok_or rbind] in H.
  apply bind_ok in H as (st & Hs & H). destruct (N.eqb _ _); [|discriminate H]. apply bind_ok in H as (base & _ & H). apply bind_ok in H as ((names, c) & Ht & H).
  apply bind_ok in H as (ps & Hp & H). apply bind_ok in H as (es & He & H). injection H as <-. cbn [nb_entries] in I.
  destruct (in_map_ok _ _ _ _ He I) as (q & Iq & Hq). apply filter_In in Iq as (Iq & _). apply filter_In in Iq as (_ & X).
  assert (K : U <= (2 * n) ^ depth * U) by (rewrite <- (Nat.mul_1_l U) at 1; apply Nat.mul_le_mono_r; exact P).
  destruct (fs_is_file fs q).
  - apply bind_ok in Hq as (s & Hq' & Hq). injection Hq as <-. cbn [entry_bulk]. unfold parse_section_file in Hq'.
    apply bind_ok in Hq' as (d & Hd & Hq'). destruct (fs_read fs q) as [d'|] eqn:Rq; [|discriminate Hd]. injection Hd as ->. apply bind_ok in Hq' as (st' & Hs' & Hq').
    destruct (N.eqb (st_schema st') section_schema) eqn:Sc; [|discriminate Hq']. apply bind_ok in Hq' as (f & Hf & Hq'). destruct (file_name q) as [f'|] eqn:Fq; [|discriminate Hf]. injection Hf as ->.
    destruct (A q d Rq) as (Ld & Td). pose proof (M q f X Fq) as Lf.
    assert (Y : section_bulk s <= length f + 16 * (length d + 2) ^ 5).
    { apply (section_fifth h fuel); [intros st0 cell sp E; exact (proj2 (Td st0 E) cell sp)|]. unfold parse_section_buffer. rewrite Hs'. cbn [rbind]. rewrite Sc. exact Hq'. }
    assert (Z : (length d + 2) ^ 5 <= (n + 2) ^ 5) by (apply Nat.pow_le_mono_l; lia). fold U. unfold U in K |- *. lia.
  - apply bind_ok in Hq as (dn & Hn & Hq). destruct (file_name q) as [f'|] eqn:Fq; [|discriminate Hn]. injection Hn as ->. pose proof (M q dn X Fq) as Lf.
    apply bind_ok in Hq as (files & _ & Hq). apply bind_ok in Hq as (toc & _ & Hq). apply bind_ok in Hq as (g & Hg & Hq).
    injection Hq as <-. cbn [entry_bulk]. specialize (IH _ _ Hg). unfold notebook_bulk in IH. assert (1 + length dn <= U) by (unfold U; lia). lia.
Qed.

(** ** The files opened *)
From Verif Require Import Timed SpecTimed TimedProofs TimedProofs3 SpecAccess AccessProofs.
Lemma parts_bound sanitise h fuel fs n :
  (forall p bs, fs_read fs p = Some bs -> length bs <= n /\ forall st, open_store h fuel bs = Ok st -> st_schema st = toc_schema -> toc_tree (st_data_root st)) -> 1 <= n ->
  forall depth p nb, parse_notebook sanitise h depth fuel fs p = Ok nb -> all_parts (nb_entries nb) <= (2 * n) ^ depth.
Proof.
  intros A N. assert (Ls : forall m l, (forall x : section_entry, In x l -> parts x <= m) -> list_sum (map parts l) <= length l * m).
  { intros m l. induction l as [|a l IHl]; intro H; [apply le_n|]. cbn [map list_sum length fold_right]. fold (list_sum (map parts l)).
    specialize (IHl (fun x I => H x (or_intror I))). specialize (H a (or_introl eq_refl)). cbn [Nat.mul]. lia. }
  induction depth as [|depth IH]; intros p nb H; [discriminate H|].
  destruct (fs_read fs p) as [bs|] eqn:R; [|cbn [parse_notebook] in H; rewrite R in H; discriminate H].
  destruct (A p bs R) as (L & T). pose proof (entries_bound _ _ _ _ _ _ _ _ T H R) as B. unfold all_parts.
  assert (P : 1 <= (2 * n) ^ depth) by (clear - N; induction depth as [|d IHd]; cbn [Nat.pow]; [lia|nia]).
  etransitivity; [apply (Ls (2 * (2 * n) ^ depth))|].
  2:{ cbn [Nat.pow]. transitivity (n * (2 * (2 * n) ^ depth)); [apply Nat.mul_le_mono_r; lia|]. apply Nat.eq_le_incl. ring. }
  intros e I. cbn [parse_notebook] in H. rewrite R in H. cbn [ok_or rbind] in H.
  apply bind_ok in H as (st & Hs & H). destruct (N.eqb _ _); [|discriminate H]. apply bind_ok in H as (base & _ & H). apply bind_ok in H as ((names, c) & Ht & H).
  apply bind_ok in H as (ps & Hp & H). apply bind_ok in H as (es & He & H). injection H as <-. cbn [nb_entries] in I.
  destruct (in_map_ok _ _ _ _ He I) as (q & _ & Hq). destruct (fs_is_file fs q).
  - apply bind_ok in Hq as (s & _ & Hq). injection Hq as <-. cbn [parts]. lia.
  - apply bind_ok in Hq as (dn & _ & Hq). apply bind_ok in Hq as (files & _ & Hq). apply bind_ok in Hq as (toc & _ & Hq). apply bind_ok in Hq as (g & Hg & Hq).
    injection Hq as <-. cbn [parts]. specialize (IH _ _ Hg). unfold all_parts in IH. lia.
Qed.
Lemma opened_bound sanitise h fuel fs n :
  (forall p bs, fs_read fs p = Some bs -> length bs <= n /\ forall st, open_store h fuel bs = Ok st -> st_schema st = toc_schema -> toc_tree (st_data_root st)) -> 1 <= n ->
  forall depth t p nb, run_io (fun _ => fs) t (io_notebook sanitise h depth fuel p) = Ok nb ->
    length (reads (asked (fun _ => fs) t (io_notebook sanitise h depth fuel p))) <= 1 + (2 * n) ^ depth.
Proof.
  intros A N depth t p nb H. rewrite (notebook_count _ _ _ _ _ _ _ _ H). rewrite stands_still in H. apply le_n_S. exact (parts_bound _ _ _ _ _ A N _ _ _ H).
Qed.
