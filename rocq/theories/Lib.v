(** General lemmas used by the proofs (nothing here mentions the code). *)
From Verif Require Import Base.
From Coq Require Export ZifyBool ZifyNat ZifyN.
Ltac Zify.zify_post_hook ::= Z.div_mod_to_equations.

Definition splice (l : list Z) (i : nat) (d : list Z) : list Z :=
  firstn i l ++ d ++ skipn (i + length d) l.

Lemma splice_length l i d : (i + length d <= length l)%nat -> length (splice l i d) = length l.
Proof.
  intros H. unfold splice. rewrite !app_length, firstn_length, skipn_length. lia.
Qed.

Lemma store_list_ok l i d : (i + length d <= length l)%nat -> store_list l i d = Some (splice l i d).
Proof.
  intros H. unfold store_list, splice. replace (i + length d <=? length l)%nat with true by lia.
  reflexivity.
Qed.

Lemma store_ok l i c : (i < length l)%nat -> store l i c = Some (splice l i [c]).
Proof.
  intros H. unfold store, splice. replace (i <? length l)%nat with true by lia.
  replace (i + length [c])%nat with (S i) by (simpl; lia). reflexivity.
Qed.

Lemma skipn_skipn_nat {A} (x y : nat) (l : list A) : skipn x (skipn y l) = skipn (y + x) l.
Proof.
  revert l; induction y as [|y IH]; intros l; [reflexivity|].
  destruct l; simpl; [now rewrite skipn_nil|apply IH].
Qed.

Lemma splice_cons l i e d :
  (length e <= i)%nat -> (i + length d <= length l)%nat ->
  splice (splice l i d) (i - length e) e = splice l (i - length e) (e ++ d).
Proof.
  intros H1 H2. unfold splice.
  rewrite firstn_app, firstn_firstn, firstn_length.
  replace (Nat.min (i - length e) i) with (i - length e)%nat by lia.
  replace (i - length e - Nat.min i (length l))%nat with O by lia.
  simpl firstn at 2. rewrite app_nil_r. f_equal.
  replace (i - length e + length e)%nat with i by lia.
  rewrite skipn_app, skipn_all2 by (rewrite firstn_length; lia).
  rewrite firstn_length. replace (i - Nat.min i (length l))%nat with O by lia.
  simpl. rewrite app_length, <- app_assoc. do 3 f_equal. lia.
Qed.

Lemma splice_app l i d1 d2 :
  (i + length d1 + length d2 <= length l)%nat ->
  splice (splice l i d1) (i + length d1) d2 = splice l i (d1 ++ d2).
Proof.
  intros H. unfold splice.
  rewrite firstn_app, firstn_firstn, firstn_length.
  replace (Nat.min (i + length d1) i) with i by lia.
  replace (i + length d1 - Nat.min i (length l))%nat with (length d1) by lia.
  rewrite firstn_app, firstn_all, Nat.sub_diag. simpl firstn. rewrite app_nil_r.
  rewrite <- !app_assoc. do 2 f_equal. f_equal.
  rewrite skipn_app, skipn_all2 by (rewrite firstn_length; lia).
  rewrite firstn_length. simpl.
  rewrite skipn_app, skipn_all2 by lia. simpl.
  rewrite skipn_skipn_nat, app_length. f_equal. lia.
Qed.

Lemma splice_full l d : length d = length l -> splice l 0 d = d.
Proof.
  intros H. unfold splice. simpl. rewrite H, skipn_all, app_nil_r. reflexivity.
Qed.

Lemma firstn_splice_before l i d k : (k <= i)%nat -> (i <= length l)%nat -> firstn k (splice l i d) = firstn k l.
Proof.
  intros H H2. unfold splice. rewrite firstn_app, firstn_firstn, firstn_length.
  replace (Nat.min k i) with k by lia. replace (k - Nat.min i (length l))%nat with O by lia.
  simpl. now rewrite app_nil_r.
Qed.

Lemma firstn_splice_upto l i d :
  (i + length d <= length l)%nat -> firstn (i + length d) (splice l i d) = firstn i l ++ d.
Proof.
  intros H. unfold splice. rewrite firstn_app, firstn_firstn, firstn_length.
  replace (Nat.min (i + length d) i) with i by lia.
  replace (i + length d - Nat.min i (length l))%nat with (length d) by lia.
  rewrite firstn_app, firstn_all, Nat.sub_diag. simpl. now rewrite app_nil_r.
Qed.

Lemma skipn_splice l i d :
  (i + length d <= length l)%nat -> skipn (i + length d) (splice l i d) = skipn (i + length d) l.
Proof.
  intros H. unfold splice. rewrite skipn_app, skipn_all2 by (rewrite firstn_length; lia).
  rewrite firstn_length. simpl.
  rewrite skipn_app, skipn_all2 by lia. simpl.
  replace (i + length d - Nat.min i (length l) - length d)%nat with O by lia. reflexivity.
Qed.

(** A Boolean test over 0..n-1 as a proof for all of them. *)
Definition zrange (n : nat) : list Z := map Z.of_nat (seq 0 n).
Lemma zrange_in n z : 0 <= z < Z.of_nat n -> In z (zrange n).
Proof.
  intros H. unfold zrange. apply in_map_iff. exists (Z.to_nat z). split; [lia|].
  apply in_seq. lia.
Qed.

Lemma sweep n (p : Z -> bool) :
  forallb p (zrange n) = true -> forall z, 0 <= z < Z.of_nat n -> p z = true.
Proof.
  intros H z Hz. rewrite forallb_forall in H. apply H, zrange_in, Hz.
Qed.

Lemma firstn_snoc {A} (l : list A) n x :
  nth_error l n = Some x -> firstn (S n) l = firstn n l ++ [x].
Proof.
  revert n; induction l as [|a l IH]; intros [|n] H; try discriminate; simpl in *.
  - now inversion H.
  - f_equal. now apply IH.
Qed.

Lemma skipn_cons {A} (l : list A) n x :
  nth_error l n = Some x -> skipn n l = x :: skipn (S n) l.
Proof.
  revert n; induction l as [|a l IH]; intros [|n] H; try discriminate; simpl in *.
  - now inversion H.
  - now apply IH.
Qed.

Lemma skipn_eq_cons {A} (l : list A) n x r :
  skipn n l = x :: r -> nth_error l n = Some x /\ skipn (S n) l = r.
Proof.
  revert n; induction l as [|a l IH]; intros [|n] H; try discriminate; simpl in *.
  - inversion H; subst. now split.
  - now apply IH in H.
Qed.

Lemma skipn_eq_nil {A} (l : list A) n : skipn n l = [] -> (length l <= n)%nat.
Proof.
  revert n; induction l as [|a l IH]; intros [|n] H; simpl in *; try discriminate; try lia.
  apply IH in H. lia.
Qed.

Lemma nth_error_skipn {A} (l : list A) n k : nth_error (skipn n l) k = nth_error l (n + k).
Proof.
  revert n; induction l as [|a l IH]; intros [|n]; simpl; auto.
  - now destruct k.
Qed.

#[global] Arguments Z.add : simpl never.
#[global] Arguments Z.sub : simpl never.
#[global] Arguments Z.mul : simpl never.
#[global] Arguments Z.div : simpl never.
#[global] Arguments Z.modulo : simpl never.
#[global] Arguments Z.pow : simpl never.
#[global] Arguments Z.land : simpl never.
#[global] Arguments Z.lor : simpl never.
#[global] Arguments Z.shiftl : simpl never.
#[global] Arguments Z.shiftr : simpl never.
#[global] Arguments Z.eqb : simpl never.
#[global] Arguments Z.ltb : simpl never.
#[global] Arguments Z.leb : simpl never.
#[global] Arguments Z.of_nat : simpl never.
#[global] Arguments Z.to_nat : simpl never.

(** Evaluates comparisons of literals. *)
Ltac lit_pos p := match p with xH => idtac | xO ?q => lit_pos q | xI ?q => lit_pos q end.
Ltac lit x := match x with Z0 => idtac | Zpos ?p => lit_pos p | Zneg ?p => lit_pos p end.
Ltac zlit :=
  repeat match goal with
  | |- context [Z.eqb ?a ?b] => lit a; lit b;
      let r := eval vm_compute in (Z.eqb a b) in change (Z.eqb a b) with r
  | |- context [Z.ltb ?a ?b] => lit a; lit b;
      let r := eval vm_compute in (Z.ltb a b) in change (Z.ltb a b) with r
  | |- context [Z.leb ?a ?b] => lit a; lit b;
      let r := eval vm_compute in (Z.leb a b) in change (Z.leb a b) with r
  end; cbv iota.
#[global] Arguments splice : simpl never.
