(** Property theorems about the counting_buffer. *)
From Verif Require Import Base Lib Reader Buffer Writer SpecWriter BufferProofs CallProofs.

(** ** C62 counting_buffer counts what has been written

    After any history of calls count() is the number of characters of the
    successful ones.  A call fails only if it needs one area larger than the
    cache. *)
Theorem C62_counts : forall cache_size calls,
  (1 <= cache_size)%nat -> Forall call_ok calls ->
  let '(log, b) := run_bops count_vt (fun b => b) (counting_buffer cache_size) (map Do calls) in
  (exists text, log_text log text /\ count_count b = length text) /\
  Forall (fun p => snd p = Ok tt \/
                   snd p = Err eof /\ needs_one_area (fst p) = true /\
                   forall u, call_text (fst p) u -> call_ok (fst p) -> (cache_size < length u)%nat) log.
Proof.
  intros cs calls Hc HF.
  destruct (run_bops_cached count_vt (count_R cs) None (Some cs) (count_lawful cs Hc) (fun b => b) (counting_buffer cs))
    with (ops := map Do calls) as (t & LT & HR & HA); auto using counting_buffer_init.
  - apply Forall_map. exact HF.
  - destruct (run_bops _ _ _ _) as [log b]. cbn [fst snd] in *. split; [exists t; split; [exact LT|now apply (count_R_count cs)]|].
    eapply Forall_impl; [|exact HA]. intros [c o] [H|(H1 & H2 & H3)]; [auto|right]. cbn in *. repeat split; auto.
    intros u HU HO. apply call_text_iff in HU; [|assumption]. subst. lia.
Qed.
Print Assumptions C62_counts.

Lemma logged_calls {K} (vt : vtable K) sync b calls : map fst (fst (run_bops vt sync b (map Do calls))) = calls.
Proof.
  induction calls as [|c calls IH] using rev_ind; [reflexivity|].
  rewrite map_app. cbn [map]. rewrite run_bops_snoc. destruct (run_bops vt sync b (map Do calls)) as [l b1]. cbn [fst] in IH |- *.
  unfold step_bop. cbn [snd fst]. destruct (run_wcall vt b1 c) as [o b2]. cbn [fst]. rewrite map_app, IH. reflexivity.
Qed.

Lemma log_text_all l t : log_text l t -> Forall call_ok (map fst l) -> Forall (fun p => snd p = Ok tt) l -> t = concat (map text_of (map fst l)).
Proof.
  induction 1 as [|l t c u H IH HU|l t c e H IH]; intros A B; [reflexivity| |].
  - rewrite map_app in A. apply Forall_app in A as (A1 & A2). apply Forall_app in B as (B1 & B2).
    rewrite !map_app, concat_app. rewrite <- (IH A1 B1). cbn in *. rewrite app_nil_r. inversion A2; subst.
    apply call_text_iff in HU; [|assumption]. now subst u.
  - apply Forall_app in B as (_ & B). inversion B; subst. discriminate.
Qed.

(** When no call needs one area larger than the cache, all succeed and the count
    is the length of all texts together: what the same calls put into a
    memory_buffer. *)
Theorem C62_complete : forall cache_size calls texts,
  (1 <= cache_size)%nat -> Forall call_ok calls -> Forall2 call_text calls texts ->
  Forall2 (fun c u => needs_one_area c = false \/ (length u <= cache_size)%nat) calls texts ->
  let '(log, b) := run_bops count_vt (fun b => b) (counting_buffer cache_size) (map Do calls) in
  map fst log = calls /\ Forall (fun p => snd p = Ok tt) log /\ count_count b = length (concat texts).
Proof.
  intros cs calls texts Hc HF HT HN.
  assert (M := logged_calls count_vt (fun b => b) (counting_buffer cs) calls). assert (T := C62_counts cs calls Hc HF).
  destruct (run_bops _ _ _ _) as [log b]. cbn [fst] in M. destruct T as ((t & LT & C) & A). split; [exact M|].
  assert (E : texts = map text_of calls).
  { clear - HF HT. induction HT as [|c u calls texts H HT IH]; [reflexivity|]. inversion HF; subst. cbn. f_equal; [now apply call_text_iff|now apply IH]. }
  subst texts.
  assert (OK : Forall (fun p => snd p = Ok tt) log).
  { rewrite Forall_forall in A |- *. intros [c o] HI. destruct (A _ HI) as [H|(H1 & H2 & H3)]; [exact H|]. exfalso. cbn [fst] in *.
    assert (IC : In c calls) by (rewrite <- M; apply (in_map fst _ _ HI)).
    assert (OC : call_ok c) by (rewrite Forall_forall in HF; auto).
    specialize (H3 (text_of c) (proj2 (call_text_iff c (text_of c) OC) eq_refl) OC).
    clear - HN IC H2 H3. induction calls as [|d calls IH]; [destruct IC|]. cbn in HN. inversion HN as [|? ? ? ? X Y]; subst.
    destruct IC as [->|IC]; [destruct X; [congruence|lia]|auto]. }
  split; [exact OK|]. rewrite C. f_equal. rewrite <- M at 1. apply log_text_all; auto. now rewrite M.
Qed.
Print Assumptions C62_complete.

Example C62_case :
  let '(log, b) := run_bops count_vt (fun b => b) (counting_buffer 3)
    (map Do [WStr (str "abcd"); WInt u8 12 10 false; WInt i32 1000 10 false; WCharN 46 10]) in
  count_count b = 16%nat /\ map snd log = [Ok tt; Ok tt; Err eof; Ok tt].
Proof. vm_compute. split; reflexivity. Qed.

Example C62_complete_case :
  let calls := [WStr (str "abcd"); WInt u8 12 10 false] in
  Forall call_ok calls /\ Forall2 call_text calls [str "abcd"; str "12"] /\
  Forall2 (fun c u => needs_one_area c = false \/ (length u <= 3)%nat) calls [str "abcd"; str "12"] /\
  count_count (snd (run_bops count_vt (fun b => b) (counting_buffer 3) (map Do calls))) = 6%nat.
Proof.
  assert (O : call_ok (WInt u8 12 10 false)) by (vm_compute; intuition discriminate).
  split; [constructor; [vm_compute; repeat (constructor; [split; [discriminate|reflexivity]|]); constructor|constructor; [exact O|constructor]]|].
  split; [constructor; [reflexivity|constructor; [apply call_text_iff; [exact O|reflexivity]|constructor]]|].
  split; [constructor; [now left|constructor; [right; cbn; lia|constructor]]|]. vm_compute. reflexivity.
Qed.
