(** Property theorems about the iterator_buffer over a pointer. *)
From Verif Require Import Base Lib Reader Buffer Writer SpecWriter BufferProofs Emits CallProofs.

(** ** C63 Writing through a pointer

    [cells] is the memory behind the pointer; a store outside it would be
    [Undef].  When the texts fit, all calls succeed, the texts are stored one
    after the other, the memory behind them is as before, and out() points
    behind the last character. *)
Theorem C63_pointer : forall limit cells calls texts,
  (length cells <= limit)%nat -> Forall call_ok calls -> Forall2 call_text calls texts ->
  (length (concat texts) <= length cells)%nat ->
  let '(log, b) := run_bops ptr_vt (fun b => b) (pointer_buffer limit cells) (map Do calls) in
  map fst log = calls /\ Forall (fun p => snd p = Ok tt) log /\
  b_kind b = concat texts ++ skipn (length (concat texts)) cells /\ ptr_out b = length (concat texts).
Proof.
  intros limit cells calls texts HM HF HT HL.
  assert (ET : texts = map text_of calls).
  { clear HL. revert HF. induction HT as [|c t calls texts Hc _ IH]; intros HF; [reflexivity|]. inversion HF; subst.
    cbn. f_equal; [now apply call_text_iff|now apply IH]. }
  subst texts. clear HT.
  enough (G : let st := run_bops ptr_vt (fun b => b) (pointer_buffer limit cells) (map Do calls) in
    map fst (fst st) = calls /\ Forall (fun p => snd p = Ok tt) (fst st) /\ ptr_R limit (length cells) cells (concat (map text_of calls)) (snd st)).
  { cbv zeta in G. destruct (run_bops _ _ _ _) as [log b]. destruct G as (G0 & G1 & G2). split; [exact G0|]. split; [exact G1|].
    destruct G2 as (_ & _ & _ & _ & H5 & _ & H7 & _). split; [exact H7|exact H5]. }
  induction calls as [|c calls IH] using rev_ind; cbv zeta in *.
  - cbn. split; [reflexivity|]. split; [constructor|]. now apply pointer_buffer_init.
  - apply Forall_app in HF as (HF & HFc). inversion HFc as [|? ? Hc _]; subst.
    rewrite (map_app text_of), concat_app in HL |- *. cbn [map concat] in *. rewrite app_nil_r in *. rewrite app_length in HL.
    destruct (IH HF ltac:(lia)) as (IH0 & IH1 & IH2). rewrite map_app. cbn [map]. rewrite run_bops_snoc.
    destruct (run_bops ptr_vt (fun b => b) (pointer_buffer limit cells) (map Do calls)) as [log b]. cbn [fst snd] in *.
    destruct (run_wcall_ok ptr_vt _ _ _ _ (ptr_lawful limit (length cells) cells) c _ _ Hc IH2 HL) as (b' & HR' & E).
    assert (EX : exec1 None None (concat (map text_of calls)) (call_op c) = (true, concat (map text_of calls) ++ text_of c)).
    { unfold call_op. now destruct (needs_one_area c). }
    rewrite EX in *. cbn [step_bop fst snd] in *. rewrite E. cbn [fst snd]. split; [now rewrite map_app, IH0|]. split; [|exact HR'].
    apply Forall_app. split; [exact IH1|]. repeat constructor.
Qed.
Print Assumptions C63_pointer.

Example C63_case :
  let calls := [WStr (str "ab"); WInt u8 12 10 false] in
  Forall call_ok calls /\ Forall2 call_text calls [str "ab"; str "12"] /\
  let '(log, b) := run_bops ptr_vt (fun b => b) (pointer_buffer 1000 (str "......")) (map Do calls) in
  b_kind b = str "ab12.." /\ ptr_out b = 4%nat.
Proof.
  assert (O : call_ok (WInt u8 12 10 false)) by (vm_compute; intuition discriminate).
  split; [constructor; [vm_compute; repeat (constructor; [split; [discriminate|reflexivity]|]); constructor|constructor; [exact O|constructor]]|].
  split; [constructor; [reflexivity|constructor; [apply call_text_iff; [exact O|reflexivity]|constructor]]|].
  vm_compute. split; reflexivity.
Qed.

(** The buffer does not know the size of the memory: a text that does not fit is
    stored outside it. *)
Example C63_too_long :
  map snd (fst (run_bops ptr_vt (fun b => b) (pointer_buffer 1000 (str "...")) (map Do [WStr (str "abcd")]))) = [Undef].
Proof. vm_compute. reflexivity. Qed.
