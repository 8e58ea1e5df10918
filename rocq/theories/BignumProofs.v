(** Exactness of the big number operations. *)
From Verif Require Import Base Lib Bignum SpecBignum.

Notation blk x := (0 <= x < 2 ^ 32).
Definition pw (n : nat) : Z := 2 ^ (32 * Z.of_nat n).

Lemma pw_0 : pw 0 = 1. Proof. reflexivity. Qed.
Lemma pw_S n : pw (S n) = 2 ^ 32 * pw n.
Proof. unfold pw. rewrite <- Z.pow_add_r by lia. f_equal. lia. Qed.
Lemma pw_pos n : 0 < pw n.
Proof. unfold pw. apply Z.pow_pos_nonneg; lia. Qed.
Lemma pw_add n m : pw (n + m) = pw n * pw m.
Proof. unfold pw. rewrite <- Z.pow_add_r by lia. f_equal. lia. Qed.
Lemma pw_le n m : (n <= m)%nat -> pw n <= pw m.
Proof. intros. unfold pw. apply Z.pow_le_mono_r; lia. Qed.
Lemma pw_lt_inv n m : pw n < pw m -> (n < m)%nat.
Proof. intros H. destruct (le_lt_dec m n) as [L|L]; [apply pw_le in L; lia|exact L]. Qed.
Lemma pw_34 : pw 34 = 2 ^ 1088.
Proof. reflexivity. Qed.

Lemma num_app a b : num (a ++ b) = num a + pw (length a) * num b.
Proof.
  induction a as [|x a IH]; [cbn [app num length]; rewrite pw_0; lia|].
  cbn [app num length]. rewrite IH, pw_S. ring.
Qed.
Lemma num_bound l : Forall (fun x => blk x) l -> 0 <= num l < pw (length l).
Proof.
  induction 1 as [|x l Hx _ IH]; [cbn [num length]; rewrite pw_0; lia|].
  cbn [num length]. rewrite pw_S. nia.
Qed.
Lemma num_zeros n : num (repeat 0 n) = 0.
Proof. induction n as [|n IH]; [reflexivity|]. cbn [repeat num]. lia. Qed.
Lemma num_zero_all l : Forall (fun x => blk x) l -> num l = 0 -> l = repeat 0 (length l).
Proof.
  induction 1 as [|x l Hx Hl IH]; intros E; [reflexivity|].
  cbn [num length repeat] in *. assert (B := num_bound l Hl).
  assert (num l = 0) by nia. rewrite <- IH by assumption. f_equal. lia.
Qed.
Lemma num_split n l : (n <= length l)%nat -> num l = num (firstn n l) + pw n * num (skipn n l).
Proof.
  intros H. rewrite <- (firstn_skipn n l) at 1. rewrite num_app, firstn_length. do 3 f_equal. lia.
Qed.
Lemma num_high l n : Forall (fun x => blk x) l -> (n <= length l)%nat -> num l < pw n ->
  num (firstn n l) = num l /\ num (skipn n l) = 0.
Proof.
  intros HF HL H. assert (S := num_split n l HL).
  assert (B1 := num_bound (firstn n l)). assert (B2 := num_bound (skipn n l)).
  assert (F : Forall (fun x => blk x) (firstn n l) /\ Forall (fun x => blk x) (skipn n l)).
  { rewrite <- Forall_app. now rewrite firstn_skipn. }
  destruct F as [F1 F2]. specialize (B1 F1). specialize (B2 F2). assert (P := pw_pos n).
  assert (Z0 : num (skipn n l) = 0) by nia. rewrite Z0 in *. lia.
Qed.

Lemma store_mid (pre : list Z) x l v i : length pre = i -> store (pre ++ x :: l) i v = Some (pre ++ v :: l).
Proof.
  intros <-. unfold store. rewrite app_length. cbn [length].
  replace (length pre <? length pre + S (length l))%nat with true by lia.
  do 2 f_equal; [now rewrite firstn_app, firstn_all, Nat.sub_diag, firstn_O, app_nil_r|].
  f_equal. rewrite skipn_app, skipn_all2 by lia. replace (S (length pre) - length pre)%nat with 1%nat by lia. reflexivity.
Qed.
Lemma nth_mid (pre : list Z) x l i : length pre = i -> nth_error (pre ++ x :: l) i = Some x.
Proof. intros <-. now rewrite nth_error_app2, Nat.sub_diag by lia. Qed.

(** ** Single blocks *)
Lemma carrying_add_spec a b c : blk a -> blk b ->
  let (v, c') := carrying_add a b c in
  blk v /\ v + 2 ^ 32 * Z.b2z c' = a + b + Z.b2z c.
Proof.
  intros Ha Hb. unfold carrying_add, block.
  assert (H32 : 2 ^ 32 = 4294967296) by reflexivity. rewrite H32 in *.
  destruct c; cbn [Z.b2z].
  - destruct (Z_lt_dec (a + b) 4294967296).
    + rewrite (Z.mod_small (a + b)) by lia. replace (a + b <? a) with false by lia. cbn [orb].
      destruct (Z.eq_dec (a + b) 4294967295) as [E|E].
      * rewrite E. change ((4294967295 + 1) mod 4294967296) with 0. cbn. lia.
      * rewrite Z.mod_small by lia. replace (a + b + 1 <? a + b) with false by lia. cbn. lia.
    + replace ((a + b) mod 4294967296) with (a + b - 4294967296) by lia.
      rewrite Z.mod_small by lia. replace (a + b - 4294967296 <? a) with true by lia. cbn. lia.
  - destruct (Z_lt_dec (a + b) 4294967296).
    + rewrite (Z.mod_small (a + b)) by lia. replace (a + b <? a) with false by lia. cbn [orb].
      rewrite Z.add_0_r, Z.mod_small by lia. rewrite Z.ltb_irrefl. cbn. lia.
    + replace ((a + b) mod 4294967296) with (a + b - 4294967296) by lia. rewrite Z.add_0_r.
      rewrite Z.mod_small by lia. replace (a + b - 4294967296 <? a) with true by lia. cbn. lia.
Qed.

Lemma borrowing_sub_spec a b c : blk a -> blk b ->
  let (v, c') := borrowing_sub a b c in
  blk v /\ v - 2 ^ 32 * Z.b2z c' = a - b - Z.b2z c.
Proof.
  intros Ha Hb. unfold borrowing_sub, block.
  assert (H32 : 2 ^ 32 = 4294967296) by reflexivity. rewrite H32 in *.
  destruct (Z_lt_dec a b).
  - replace ((a - b) mod 4294967296) with (a - b + 4294967296) by lia.
    replace (a <? a - b + 4294967296) with true by lia. cbn [orb].
    destruct c; cbn [Z.b2z].
    + rewrite Z.mod_small by lia. lia.
    + rewrite Z.sub_0_r, Z.mod_small by lia. lia.
  - rewrite (Z.mod_small (a - b)) by lia. replace (a <? a - b) with false by lia. cbn [orb].
    destruct c; cbn [Z.b2z].
    + destruct (Z.eq_dec a b) as [->|].
      * rewrite Z.sub_diag. cbn. lia.
      * rewrite Z.mod_small by lia. replace (a - b <? a - b - 1) with false by lia. cbn. lia.
    + rewrite Z.sub_0_r, Z.mod_small by lia. rewrite Z.ltb_irrefl. cbn. lia.
Qed.

Lemma carrying_mul_spec a b c : blk a -> blk b -> blk c ->
  let (v, c') := carrying_mul a b c in
  blk v /\ blk c' /\ v + 2 ^ 32 * c' = a * b + c.
Proof.
  intros Ha Hb Hc. unfold carrying_mul, block.
  assert (HB : 0 <= a * b + c < 2 ^ 64).
  { change (2 ^ 64) with (2 ^ 32 * 2 ^ 32). nia. }
  rewrite (Z.mod_small (a * b + c)) by lia. set (x := a * b + c) in *. clearbody x.
  assert (HD : 0 <= x / 2 ^ 32 < 2 ^ 32).
  { split; [apply Z.div_pos; lia|]. apply Z.div_lt_upper_bound; lia. }
  rewrite (Z.mod_small (x / 2 ^ 32)) by lia.
  assert (M := Z.mod_pos_bound x (2 ^ 32) ltac:(lia)). assert (D := Z.div_mod x (2 ^ 32) ltac:(lia)). lia.
Qed.

Lemma Forall_firstn' {A} (P : A -> Prop) n l : Forall P l -> Forall P (firstn n l).
Proof. intros H. rewrite <- (firstn_skipn n l) in H. apply Forall_app in H. tauto. Qed.
Lemma Forall_skipn' {A} (P : A -> Prop) n l : Forall P l -> Forall P (skipn n l).
Proof. intros H. rewrite <- (firstn_skipn n l) in H. apply Forall_app in H. tauto. Qed.

(** ** Addition *)
Lemma add_loop_spec osize : forall fuel pre cur opre ocur i c,
  length pre = i -> length opre = i -> length cur = length ocur -> (length cur < fuel)%nat ->
  (osize <= i + length cur)%nat ->
  Forall (fun x => blk x) cur -> Forall (fun x => blk x) ocur ->
  exists k c' lo,
    add_loop fuel (pre ++ cur) (opre ++ ocur) osize i c = Some (pre ++ lo ++ skipn k cur, (i + k)%nat, c') /\
    (k <= length cur)%nat /\ length lo = k /\ Forall (fun x => blk x) lo /\
    num lo + pw k * Z.b2z c' = num (firstn k cur) + num (firstn k ocur) + Z.b2z c /\
    (osize <= i + k)%nat /\ (c' = false \/ k = length cur) /\
    (k <> O -> (osize < i + k)%nat ->
     pw (k - 1) <= num (firstn (k - 1) cur) + num (firstn (k - 1) ocur) + Z.b2z c).
Proof.
  induction fuel as [|fuel IH]; intros pre cur opre ocur i c Hp Ho HL Hf Hs F1 F2; [lia|].
  cbn [add_loop]. rewrite app_length.
  destruct ((i <? osize)%nat || (c && (i <? length pre + length cur)%nat)) eqn:G.
  - destruct cur as [|x cur]; [cbn [length] in *; destruct c; cbn [andb orb length] in G; lia|].
    destruct ocur as [|y ocur]; [cbn in HL; lia|].
    rewrite (nth_mid pre), (nth_mid opre) by assumption. cbn [obind].
    inversion F1 as [|? ? Hx F1']; inversion F2 as [|? ? Hy F2']; subst.
    assert (S1 := carrying_add_spec x y c Hx Hy). destruct (carrying_add x y c) as [v c1]. destruct S1 as [Hv S1].
    rewrite store_mid by reflexivity. cbn [obind].
    destruct (IH (pre ++ [v]) cur (opre ++ [y]) ocur (S (length pre)) c1) as (k & c' & lo & E & Hk & Hl & FL & N & O1 & O2 & O3).
    + rewrite app_length. cbn. lia.
    + rewrite app_length. cbn. lia.
    + cbn in HL. lia.
    + cbn in Hf. lia.
    + cbn [length] in Hs. lia.
    + assumption.
    + assumption.
    + rewrite <- !app_assoc in E. cbn [app] in E. rewrite E.
      exists (S k), c', (v :: lo). cbn [length firstn skipn num app]. split; [do 3 f_equal; lia|].
      split; [lia|]. split; [lia|]. split; [now constructor|]. rewrite pw_S.
      split; [nia|]. split; [lia|]. split; [destruct O2; [now left|right; lia]|].
      intros _ Hgt. replace (S k - 1)%nat with k by lia. destruct k as [|k].
      * cbn [firstn num]. rewrite pw_0. destruct c; cbn [Z.b2z]; [lia|]. exfalso. cbn [andb orb length] in G. lia.
      * cbn [firstn num]. rewrite pw_S. assert (O3' : pw k <= num (firstn k cur) + num (firstn k ocur) + Z.b2z c1).
        { specialize (O3 ltac:(lia) ltac:(lia)). replace (S k - 1)%nat with k in O3 by lia. exact O3. }
        nia.
  - exists O, c, []. cbn [app skipn firstn num length]. split; [do 3 f_equal; lia|]. split; [lia|]. split; [reflexivity|].
    split; [constructor|]. split; [rewrite pw_0; lia|]. split; [lia|]. split; [|lia].
    destruct c; [right; cbn [andb orb length] in G; lia|now left].
Qed.

Lemma wf_value b : bn_wf b -> 0 <= bn_value b < pw (bn_size b).
Proof.
  intros (HL & HF & HS & HV). split; [apply num_bound; assumption|exact HV].
Qed.

Lemma represents_fits b v : represents b v -> bn_fits v.
Proof.
  intros [[H N] <-]. assert (V := wf_value b H). destruct H as (HL & HF & HS & HV).
  unfold bn_fits. rewrite <- pw_34. assert (P := pw_le (bn_size b) 34 HS). lia.
Qed.

Lemma represents_intro base size v : length base = 34%nat -> Forall (fun x => blk x) base -> (size <= 34)%nat ->
  num base = v -> v < pw size -> (size = O \/ pw (size - 1) <= v) -> represents (mk_bn size base) v.
Proof.
  intros HL HF HS HN HU HD. split; [split; [split; [exact HL|split; [exact HF|split; [exact HS|]]]|]|exact HN].
  - unfold bn_value. cbn. rewrite HN. exact HU.
  - cbn. destruct HD as [|HD]; [now left|]. destruct size as [|size]; [now left|]. right. unfold bn_value. cbn [bn_base]. rewrite HN.
    unfold pw in HD. replace (Z.of_nat (S size) - 1) with (Z.of_nat (S size - 1)) by lia. exact HD.
Qed.

Lemma represents_elim b v : represents b v ->
  exists lo, bn_base b = lo ++ repeat 0 (34 - bn_size b) /\ length lo = bn_size b /\ (bn_size b <= 34)%nat /\
    Forall (fun x => blk x) lo /\ num lo = v /\ 0 <= v < pw (bn_size b) /\ (bn_size b = O \/ pw (bn_size b - 1) <= v).
Proof.
  intros [[H N] <-]. assert (V := wf_value b H). destruct H as (HL & HF & HS & HV).
  destruct (num_high (bn_base b) (bn_size b)) as [N1 N2]; [assumption|lia|exact HV|].
  exists (firstn (bn_size b) (bn_base b)).
  assert (F : Forall (fun x => blk x) (firstn (bn_size b) (bn_base b)) /\ Forall (fun x => blk x) (skipn (bn_size b) (bn_base b))).
  { rewrite <- Forall_app. now rewrite firstn_skipn. }
  destruct F as [F1 F2]. split.
  - rewrite <- (firstn_skipn (bn_size b) (bn_base b)) at 1. f_equal.
    rewrite (num_zero_all _ F2 N2). now rewrite skipn_length, HL.
  - rewrite firstn_length. split; [lia|]. split; [lia|]. split; [assumption|]. split; [exact N1|]. split; [exact V|].
    destruct N as [|N]; [now left|]. destruct (bn_size b) as [|s]; [now left|]. right.
    unfold pw. replace (Z.of_nat (S s - 1)) with (Z.of_nat (S s) - 1) by lia. exact N.
Qed.

Lemma blk_zeros n : Forall (fun x => blk x) (repeat 0 n).
Proof. apply Forall_forall. intros x Hx. apply repeat_spec in Hx. lia. Qed.

Lemma represents_base b v : represents b v ->
  length (bn_base b) = 34%nat /\ Forall (fun x => blk x) (bn_base b) /\ num (bn_base b) = v.
Proof. intros [[(HL & HF & _) _] HV]. auto. Qed.

(** The least number of blocks is determined by the value. *)
Lemma size_unique s1 s2 v : v < pw s1 -> (s1 = O \/ pw (s1 - 1) <= v) -> v < pw s2 -> (s2 = O \/ pw (s2 - 1) <= v) -> 0 <= v -> s1 = s2.
Proof.
  intros U1 D1 U2 D2 H0.
  destruct (lt_eq_lt_dec s1 s2) as [[L|E]|L]; [|exact E|].
  - destruct D2 as [|D2]; [lia|]. assert (P := pw_le s1 (s2 - 1) ltac:(lia)). lia.
  - destruct D1 as [|D1]; [lia|]. assert (P := pw_le s2 (s1 - 1) ltac:(lia)). lia.
Qed.

Lemma represents_size b v : represents b v -> v < pw (bn_size b) /\ (bn_size b = O \/ pw (bn_size b - 1) <= v) /\ (bn_size b <= 34)%nat.
Proof. intros H. destruct (represents_elim b v H) as (lo & _ & _ & HS & _ & _ & HV & HD). intuition lia. Qed.

Theorem bn_add_correct a b va vb : represents a va -> represents b vb -> bn_fits (va + vb) ->
  exists c, bn_add a b = Ok c /\ represents c (va + vb).
Proof.
  intros Ha Hb Hfit. destruct (represents_base a va Ha) as (LA & FA & NA). destruct (represents_base b vb Hb) as (LB & FB & NB).
  destruct (represents_size a va Ha) as (UA & DA & SA). destruct (represents_size b vb Hb) as (UB & DB & SB).
  assert (VA := num_bound _ FA). assert (VB := num_bound _ FB). rewrite LA in VA. rewrite LB in VB. rewrite NA in VA. rewrite NB in VB.
  destruct (add_loop_spec (bn_size b) (S (length (bn_base a))) [] (bn_base a) [] (bn_base b) 0 false)
    as (k & c' & lo & E & Hk & Hl & FL & N & O1 & O2 & O3); try reflexivity; try assumption; try lia.
  cbn [app] in E. unfold bn_add. rewrite E. cbn [obind out_of_bounds]. eexists. split; [reflexivity|].
  cbn [Z.b2z] in *. rewrite Z.add_0_r in N. replace (0 + k)%nat with k in * by lia.
  assert (SPA := num_split k (bn_base a) Hk). assert (SPB := num_split k (bn_base b) ltac:(lia)).
  assert (HB2 : num (skipn k (bn_base b)) = 0).
  { destruct (num_high (bn_base b) k FB ltac:(lia)) as [_ ?]; [|assumption]. rewrite NB. assert (P := pw_le (bn_size b) k O1). lia. }
  assert (PK := pw_pos k).
  assert (FS : Forall (fun x => blk x) (skipn k (bn_base a))) by (apply Forall_skipn'; exact FA).
  assert (BS := num_bound _ FS). assert (BL := num_bound _ FL). rewrite Hl in BL.
  assert (Hc : c' = false).
  { destruct O2 as [|O2]; [assumption|]. destruct c'; [|reflexivity]. exfalso. cbn [Z.b2z] in N.
    rewrite O2, LA in *. unfold bn_fits in Hfit. rewrite <- pw_34 in Hfit. rewrite skipn_all2 in SPA by lia.
    cbn [num] in SPA. nia. }
  subst c'. cbn [Z.b2z] in N.
  assert (NT : num (lo ++ skipn k (bn_base a)) = va + vb).
  { rewrite num_app, Hl. nia. }
  apply represents_intro.
  - rewrite app_length, skipn_length. lia.
  - apply Forall_app. now split.
  - destruct (bn_size a <? k)%nat eqn:?; lia.
  - exact NT.
  - destruct (bn_size a <? k)%nat eqn:G.
    + assert (P := pw_le (bn_size a) k ltac:(lia)). destruct (num_high (bn_base a) k FA ltac:(lia)) as [_ Z1]; [lia|]. nia.
    + (* the blocks behind [k] are those of [a] *)
      assert (HH : num (skipn k (bn_base a)) < pw (bn_size a - k)).
      { replace (bn_size a) with (k + (bn_size a - k))%nat in UA by lia. rewrite pw_add in UA.
        assert (BF : 0 <= num (firstn k (bn_base a))).
        { apply num_bound. apply Forall_firstn'. exact FA. }
        nia. }
      rewrite <- NT, num_app, Hl.
      assert (PA : pw (bn_size a) = pw k * pw (bn_size a - k)) by (rewrite <- pw_add; f_equal; lia). rewrite PA. nia.
  - destruct (bn_size a <? k)%nat eqn:G.
    + right. destruct (Nat.eq_dec k (bn_size b)) as [->|NE].
      * destruct DB as [DB|DB]; [rewrite DB in G; lia|]. lia.
      * specialize (O3 ltac:(lia) ltac:(lia)). rewrite Z.add_0_r in O3.
        assert (P1 := pw_le (bn_size a) (k - 1) ltac:(lia)). assert (P2 := pw_le (bn_size b) (k - 1) ltac:(lia)).
        destruct (num_high (bn_base a) (k - 1) FA ltac:(lia)) as [-> _] in O3; [lia|].
        destruct (num_high (bn_base b) (k - 1) FB ltac:(lia)) as [-> _] in O3; [lia|]. lia.
    + destruct DA as [DA|DA]; [now left|right; lia].
Qed.

(** ** Subtraction *)
Lemma sub_loop_spec : forall n pre cur opre ocur i c,
  length pre = i -> length opre = i -> (n <= length cur)%nat -> (n <= length ocur)%nat ->
  Forall (fun x => blk x) cur -> Forall (fun x => blk x) ocur ->
  exists c' lo,
    sub_loop n (pre ++ cur) (opre ++ ocur) i c = Some (pre ++ lo ++ skipn n cur) /\
    length lo = n /\ Forall (fun x => blk x) lo /\
    num lo - pw n * Z.b2z c' = num (firstn n cur) - num (firstn n ocur) - Z.b2z c.
Proof.
  induction n as [|n IH]; intros pre cur opre ocur i c Hp Ho H1 H2 F1 F2.
  - exists c, []. cbn [sub_loop skipn firstn num app length]. rewrite pw_0. repeat split; [constructor|lia].
  - destruct cur as [|x cur]; [cbn in H1; lia|]. destruct ocur as [|y ocur]; [cbn in H2; lia|].
    cbn [sub_loop]. rewrite (nth_mid pre), (nth_mid opre) by assumption. cbn [obind].
    inversion F1 as [|? ? Hx F1']; inversion F2 as [|? ? Hy F2']; subst.
    assert (S1 := borrowing_sub_spec x y c Hx Hy). destruct (borrowing_sub x y c) as [v c1]. destruct S1 as [Hv S1].
    rewrite store_mid by reflexivity. cbn [obind].
    destruct (IH (pre ++ [v]) cur (opre ++ [y]) ocur (S (length pre)) c1) as (c' & lo & E & Hl & FL & N); try assumption.
    + rewrite app_length. cbn. lia.
    + rewrite app_length. cbn. lia.
    + cbn in H1. lia.
    + cbn in H2. lia.
    + rewrite <- !app_assoc in E. cbn [app] in E. rewrite E.
      exists c', (v :: lo). cbn [length firstn skipn num app]. rewrite pw_S.
      split; [reflexivity|]. split; [lia|]. split; [now constructor|]. nia.
Qed.

Lemma trim_spec base : Forall (fun x => blk x) base -> forall n, (n <= length base)%nat -> num base < pw n ->
  exists s, trim n base = Some s /\ (s <= n)%nat /\ num base < pw s /\ (s = O \/ pw (s - 1) <= num base).
Proof.
  intros HF. induction n as [|n IH]; intros HL HB.
  - exists O. cbn [trim]. rewrite pw_0 in *. intuition lia.
  - cbn [trim]. destruct (nth_error base n) as [v|] eqn:E; [|apply nth_error_None in E; lia]. cbn [obind].
    assert (Hv : blk v) by (rewrite Forall_forall in HF; apply HF; eapply nth_error_In; exact E).
    destruct (num_high base (S n) HF ltac:(lia) HB) as [N1 _].
    destruct (nth_error_split base n E) as (l1 & l2 & EB & EL).
    assert (NF : num (firstn (S n) base) = num (firstn n base) + pw n * v).
    { rewrite EB. rewrite !firstn_app. rewrite (firstn_all2 (n := S n)) by lia. rewrite (firstn_all2 (n := n)) by lia.
      replace (S n - length l1)%nat with 1%nat by lia. replace (n - length l1)%nat with 0%nat by lia. cbn [firstn].
      rewrite app_nil_r, num_app. cbn [num]. rewrite EL. ring. }
    assert (BF := num_bound (firstn n base) (Forall_firstn' _ n _ HF)). rewrite firstn_length in BF.
    replace (Nat.min n (length base)) with n in BF by lia. assert (P := pw_pos n).
    destruct (v =? 0) eqn:EV.
    + destruct IH as (s & ES & Hs & U & D); [lia|nia|]. exists s. intuition lia.
    + exists (S n). split; [reflexivity|]. split; [lia|]. split; [exact HB|]. right. replace (S n - 1)%nat with n by lia. nia.
Qed.

Theorem bn_sub_correct a b va vb : represents a va -> represents b vb -> vb <= va ->
  exists c, bn_sub a b = Ok c /\ represents c (va - vb).
Proof.
  intros Ha Hb Hle. destruct (represents_base a va Ha) as (LA & FA & NA). destruct (represents_base b vb Hb) as (LB & FB & NB).
  destruct (represents_size a va Ha) as (UA & DA & SA). destruct (represents_size b vb Hb) as (UB & DB & SB).
  assert (VA := num_bound _ FA). assert (VB := num_bound _ FB). rewrite LA in VA. rewrite LB in VB. rewrite NA in VA. rewrite NB in VB.
  unfold bn_sub. destruct (bn_size a =? 0)%nat eqn:E0.
  - apply Nat.eqb_eq in E0. rewrite E0, pw_0 in UA. exists a. split; [reflexivity|].
    replace (va - vb) with va by lia. exact Ha.
  - destruct (sub_loop_spec (bn_size a) [] (bn_base a) [] (bn_base b) 0 false) as (c' & lo & E & Hl & FL & N);
      try reflexivity; try assumption; try lia.
    cbn [app] in E. rewrite E. cbn [obind].
    destruct (num_high (bn_base a) (bn_size a) FA ltac:(lia)) as [A1 A2]; [lia|].
    destruct (num_high (bn_base b) (bn_size a) FB ltac:(lia)) as [B1 B2]; [lia|].
    assert (BL := num_bound _ FL). rewrite Hl in BL. rewrite A1, B1, NA, NB in N. cbn [Z.b2z] in N.
    assert (P := pw_pos (bn_size a)).
    assert (c' = false) by (destruct c'; [cbn [Z.b2z] in N; lia|reflexivity]). subst c'. cbn [Z.b2z] in N.
    assert (NT : num (lo ++ skipn (bn_size a) (bn_base a)) = va - vb) by (rewrite num_app, A2; lia).
    assert (FT : Forall (fun x => blk x) (lo ++ skipn (bn_size a) (bn_base a))).
    { apply Forall_app. split; [assumption|now apply Forall_skipn']. }
    assert (LT : length (lo ++ skipn (bn_size a) (bn_base a)) = 34%nat) by (rewrite app_length, skipn_length; lia).
    destruct (trim_spec _ FT (bn_size a)) as (s & ES & Hs & U & D); [lia|lia|].
    rewrite ES. cbn [obind out_of_bounds]. eexists. split; [reflexivity|].
    rewrite NT in U, D. apply represents_intro; try assumption; lia.
Qed.

(** ** Multiplication by one block *)
Lemma mul_loop_spec other : blk other -> forall n pre cur i c,
  length pre = i -> (n <= length cur)%nat -> Forall (fun x => blk x) cur -> blk c ->
  exists c' lo,
    mul_loop n (pre ++ cur) i other c = Some (pre ++ lo ++ skipn n cur, c') /\
    length lo = n /\ Forall (fun x => blk x) lo /\ blk c' /\
    num lo + pw n * c' = num (firstn n cur) * other + c.
Proof.
  intros HO. induction n as [|n IH]; intros pre cur i c Hp H1 F1 Hc.
  - exists c, []. cbn [mul_loop skipn firstn num app length]. rewrite pw_0.
    split; [reflexivity|]. split; [reflexivity|]. split; [constructor|]. split; [exact Hc|lia].
  - destruct cur as [|x cur]; [cbn in H1; lia|].
    cbn [mul_loop]. rewrite (nth_mid pre) by assumption. cbn [obind].
    inversion F1 as [|? ? Hx F1']; subst.
    assert (S1 := carrying_mul_spec x other c Hx HO Hc). destruct (carrying_mul x other c) as [v c1]. destruct S1 as (Hv & Hc1 & S1).
    rewrite store_mid by reflexivity. cbn [obind].
    destruct (IH (pre ++ [v]) cur (S (length pre)) c1) as (c' & lo & E & Hl & FL & Hc' & N); try assumption.
    + rewrite app_length. cbn. lia.
    + cbn in H1. lia.
    + rewrite <- !app_assoc in E. cbn [app] in E. rewrite E.
      exists c', (v :: lo). cbn [length firstn skipn num app]. rewrite pw_S.
      split; [reflexivity|]. split; [lia|]. split; [now constructor|]. split; [assumption|]. nia.
Qed.

(** Storing a carry block behind the significant blocks. *)
Lemma with_carry base size lo c v : base = lo ++ repeat 0 (34 - size) -> length lo = size -> (size <= 34)%nat ->
  Forall (fun x => blk x) lo -> blk c -> num lo + pw size * c = v -> bn_fits v ->
  (size = O \/ pw (size - 1) <= v) ->
  exists b, (if 0 <? c then odo base <- store base size c ;; Some (mk_bn (size + 1) base)
             else Some (mk_bn size base)) = Some b /\ represents b v.
Proof.
  intros EB HL HS FL HC HN HF HD. assert (BL := num_bound lo FL). rewrite HL in BL. assert (P := pw_pos size).
  destruct (0 <? c) eqn:G.
  - assert (HS' : (size < 34)%nat).
    { unfold bn_fits in HF. rewrite <- pw_34 in HF. apply pw_lt_inv. nia. }
    destruct (34 - size)%nat as [|z] eqn:EZ; [lia|]. cbn [repeat] in EB. rewrite EB.
    rewrite store_mid by assumption. cbn [obind]. eexists. split; [reflexivity|].
    apply represents_intro.
    + rewrite app_length. cbn [length]. rewrite repeat_length. lia.
    + apply Forall_app. split; [assumption|]. constructor; [assumption|apply blk_zeros].
    + lia.
    + rewrite num_app. cbn [num]. rewrite num_zeros, HL. lia.
    + replace (size + 1)%nat with (S size) by lia. rewrite pw_S. nia.
    + right. replace (size + 1 - 1)%nat with size by lia. nia.
  - eexists. split; [reflexivity|]. rewrite EB. apply represents_intro; try assumption.
    + rewrite app_length, repeat_length. lia.
    + apply Forall_app. split; [assumption|apply blk_zeros].
    + rewrite num_app, num_zeros. nia.
    + nia.
Qed.

Theorem bn_muladd_small_correct a va other c : represents a va -> 0 < other < 2 ^ 32 -> 0 <= c < 2 ^ 32 -> bn_fits (va * other + c) ->
  exists b, bn_muladd_small a other c = Ok b /\ represents b (va * other + c).
Proof.
  intros Ha HO HC HF. destruct (represents_elim a va Ha) as (lo & EB & HL & HS & FL & HN & HV & HD).
  unfold bn_muladd_small.
  destruct (mul_loop_spec other ltac:(lia) (bn_size a) [] (bn_base a) 0 c) as (c' & lo' & E & Hl & FL' & Hc' & N); try lia.
  - reflexivity.
  - rewrite EB, app_length, repeat_length. lia.
  - rewrite EB. apply Forall_app. split; [assumption|apply blk_zeros].
  - cbn [app] in E. rewrite E. cbn [obind].
    rewrite EB in E, N |- *. rewrite firstn_app, firstn_all2, HL, Nat.sub_diag, firstn_O, app_nil_r, HN in N by lia.
    rewrite skipn_app, skipn_all2, HL, Nat.sub_diag by lia. cbn [app skipn].
    destruct (with_carry (lo' ++ repeat 0 (34 - bn_size a)) (bn_size a) lo' c' (va * other + c)) as (b & E1 & R1); try assumption; try reflexivity.
    + destruct HD as [|HD]; [now left|right; nia].
    + rewrite E1. exists b. now split.
Qed.

Theorem bn_mul_small_correct a va other : represents a va -> 0 < other < 2 ^ 32 -> bn_fits (va * other) ->
  exists b, bn_mul_small a other = Ok b /\ represents b (va * other).
Proof.
  intros Ha HO HF. replace (va * other) with (va * other + 0) in * by lia.
  apply bn_muladd_small_correct; try assumption. lia.
Qed.

(** The bound of big numbers as a variable: [nia] is slow on the number. *)
Ltac hide_bound := unfold bn_fits in *; let K := fresh "K" in set (K := 2 ^ 1088) in *; clearbody K.

(** ** Powers of five *)
Lemma mul_pow5_loop_correct : forall n a va, represents a va -> bn_fits (va * 5 ^ (13 * Z.of_nat n)) ->
  exists b, mul_pow5_loop n a = Ok b /\ represents b (va * 5 ^ (13 * Z.of_nat n)).
Proof.
  induction n as [|n IH]; intros a va Ha HF.
  - exists a. cbn [mul_pow5_loop]. change (5 ^ (13 * Z.of_nat 0)) with 1. rewrite Z.mul_1_r. now split.
  - cbn [mul_pow5_loop].
    assert (E5 : va * 5 ^ (13 * Z.of_nat (S n)) = va * 1220703125 * 5 ^ (13 * Z.of_nat n)).
    { replace (13 * Z.of_nat (S n)) with (13 + 13 * Z.of_nat n) by lia. rewrite Z.pow_add_r by lia.
      change (5 ^ 13) with 1220703125. ring. }
    rewrite E5 in *. assert (P : 0 < 5 ^ (13 * Z.of_nat n)) by (apply Z.pow_pos_nonneg; lia).
    assert (V := represents_fits a va Ha).
    destruct (bn_mul_small_correct a va 1220703125 Ha) as (b & E & R); [lia|hide_bound; nia|].
    rewrite E. cbn [bind]. apply IH; assumption.
Qed.

Lemma rest_power_spec k : (k < 12)%nat -> rest_power k = 5 ^ (Z.of_nat k + 1) /\ 0 < rest_power k < 2 ^ 32.
Proof.
  intros H. do 12 (destruct k as [|k]; [vm_compute; intuition discriminate|]). lia.
Qed.

Theorem bn_mul_pow5_correct a va k : represents a va -> bn_fits (va * 5 ^ Z.of_nat k) ->
  exists b, bn_mul_pow5 a k = Ok b /\ represents b (va * 5 ^ Z.of_nat k).
Proof.
  intros Ha HF. unfold bn_mul_pow5. assert (D := Nat.div_mod k 13 ltac:(lia)). assert (M := Nat.mod_upper_bound k 13 ltac:(lia)).
  set (q := (k / 13)%nat) in *. set (r := (k mod 13)%nat) in *. clearbody q r.
  assert (E5 : va * 5 ^ Z.of_nat k = va * 5 ^ (13 * Z.of_nat q) * 5 ^ Z.of_nat r).
  { rewrite D, Nat2Z.inj_add, Z.pow_add_r by lia. rewrite Nat2Z.inj_mul. change (Z.of_nat 13) with 13. ring. }
  rewrite E5 in *. assert (V := represents_fits a va Ha).
  assert (P1 : 0 < 5 ^ (13 * Z.of_nat q)) by (apply Z.pow_pos_nonneg; lia).
  assert (P2 : 0 < 5 ^ Z.of_nat r) by (apply Z.pow_pos_nonneg; lia).
  destruct (mul_pow5_loop_correct q a va Ha) as (b & E & R); [hide_bound; nia|].
  rewrite E. cbn [bind]. destruct (r =? 0)%nat eqn:E0.
  - apply Nat.eqb_eq in E0. subst r. exists b. change (5 ^ Z.of_nat 0) with 1. rewrite Z.mul_1_r. now split.
  - apply Nat.eqb_neq in E0. destruct (rest_power_spec (r - 1) ltac:(lia)) as [ER BR].
    replace (Z.of_nat (r - 1) + 1) with (Z.of_nat r) in ER by lia. rewrite <- ER in *.
    apply bn_mul_small_correct; assumption.
Qed.

(** ** Powers of two *)
Lemma store_some (l : list Z) i v : (i < length l)%nat ->
  exists l', store l i v = Some l' /\ length l' = length l /\
    forall j, nth_error l' j = if (j =? i)%nat then Some v else nth_error l j.
Proof.
  intros H. unfold store. replace (i <? length l)%nat with true by lia. eexists. split; [reflexivity|].
  assert (LF : length (firstn i l) = i) by (rewrite firstn_length; lia). split.
  - rewrite app_length, LF. cbn [length]. rewrite skipn_length. lia.
  - intros j. destruct (j =? i)%nat eqn:E.
    + apply Nat.eqb_eq in E. subst j. rewrite nth_error_app2, LF, Nat.sub_diag by lia. reflexivity.
    + apply Nat.eqb_neq in E. destruct (le_lt_dec i j).
      * rewrite nth_error_app2, LF by lia. destruct (j - i)%nat as [|d] eqn:ED; [lia|]. cbn [nth_error].
        rewrite <- (firstn_skipn (S i) l) at 2. rewrite nth_error_app2; rewrite firstn_length; [|lia]. f_equal. lia.
      * rewrite nth_error_app1 by lia. rewrite <- (firstn_skipn i l) at 2. now rewrite nth_error_app1 by lia.
Qed.

Lemma shift_loop_spec digits : (0 < digits)%nat -> forall n base, (n + digits <= length base)%nat ->
  exists base', shift_loop n base digits = Some base' /\ length base' = length base /\
    (forall j, (n + digits <= j)%nat -> nth_error base' j = nth_error base j) /\
    (forall j, (digits <= j < n + digits)%nat -> nth_error base' j = nth_error base (j - digits)).
Proof.
  intros HD. induction n as [|n IH]; intros base H.
  - exists base. cbn [shift_loop]. repeat split; intros; try reflexivity; lia.
  - cbn [shift_loop]. destruct (nth_error base n) as [v|] eqn:E; [|apply nth_error_None in E; lia]. cbn [obind].
    destruct (store_some base (n + digits) v ltac:(lia)) as (b1 & E1 & L1 & N1). rewrite E1. cbn [obind].
    destruct (IH b1 ltac:(lia)) as (b2 & E2 & L2 & H2 & H3). exists b2. split; [exact E2|]. split; [lia|]. split.
    + intros j Hj. rewrite H2, N1 by lia. now replace (j =? n + digits)%nat with false by lia.
    + intros j Hj. destruct (Nat.eq_dec j (n + digits)) as [->|NE].
      * rewrite H2, N1, Nat.eqb_refl by lia. rewrite <- E. f_equal. lia.
      * rewrite H3, N1 by lia. now replace (j - digits =? n + digits)%nat with false by lia.
Qed.

Lemma zero_loop_spec : forall n base i, (n + i <= length base)%nat ->
  exists base', zero_loop n base i = Some base' /\ length base' = length base /\
    forall j, nth_error base' j = if ((i <=? j) && (j <? n + i))%nat then Some 0 else nth_error base j.
Proof.
  induction n as [|n IH]; intros base i H.
  - exists base. cbn [zero_loop]. repeat split. intros j. replace ((i <=? j) && (j <? 0 + i))%nat with false by lia. reflexivity.
  - cbn [zero_loop]. destruct (store_some base i 0 ltac:(lia)) as (b1 & E1 & L1 & N1). rewrite E1. cbn [obind].
    destruct (IH b1 (S i) ltac:(lia)) as (b2 & E2 & L2 & H2). exists b2. split; [exact E2|]. split; [lia|].
    intros j. rewrite H2, N1. destruct (j =? i)%nat eqn:EJ.
    + replace ((S i <=? j) && (j <? n + S i))%nat with false by lia. now replace ((i <=? j) && (j <? S n + i))%nat with true by lia.
    + replace ((S i <=? j) && (j <? n + S i))%nat with ((i <=? j) && (j <? S n + i))%nat by lia. reflexivity.
Qed.

Lemma nth_error_repeat' {A} (x : A) n j : nth_error (repeat x n) j = if (j <? n)%nat then Some x else None.
Proof.
  destruct (j <? n)%nat eqn:E.
  - now rewrite nth_error_repeat by lia.
  - apply nth_error_None. rewrite repeat_length. lia.
Qed.

Lemma nth_error_ext' {A} (l l' : list A) : (forall j, nth_error l j = nth_error l' j) -> l = l'.
Proof.
  revert l'. induction l as [|x l IH]; intros [|y l'] H.
  - reflexivity.
  - specialize (H 0%nat). discriminate H.
  - specialize (H 0%nat). discriminate H.
  - f_equal; [specialize (H 0%nat); now injection H|]. apply IH. intros j. exact (H (S j)).
Qed.

Lemma shift_blocks lo size digits : length lo = size -> (0 < digits)%nat -> (size + digits <= 34)%nat ->
  (odo base <- shift_loop size (lo ++ repeat 0 (34 - size)) digits ;;
   odo base <- zero_loop digits base 0 ;;
   Some (mk_bn (size + digits) base)) =
  Some (mk_bn (size + digits) (repeat 0 digits ++ lo ++ repeat 0 (34 - (size + digits)))).
Proof.
  intros HL HD HS. assert (LB : length (lo ++ repeat 0 (34 - size)) = 34%nat) by (rewrite app_length, repeat_length; lia).
  destruct (shift_loop_spec digits HD size (lo ++ repeat 0 (34 - size)) ltac:(lia)) as (b1 & E1 & L1 & H1 & H2).
  rewrite E1. cbn [obind]. destruct (zero_loop_spec digits b1 0 ltac:(lia)) as (b2 & E2 & L2 & H3).
  rewrite E2. cbn [obind]. do 2 f_equal. apply nth_error_ext'. intros j. rewrite H3.
  destruct ((0 <=? j) && (j <? digits + 0))%nat eqn:G.
  - rewrite nth_error_app1 by (rewrite repeat_length; lia). rewrite nth_error_repeat'. now replace (j <? digits)%nat with true by lia.
  - rewrite (nth_error_app2 (repeat 0 digits)) by (rewrite repeat_length; lia). rewrite repeat_length.
    destruct (le_lt_dec (size + digits) j) as [G1|G1].
    + rewrite H1 by lia. rewrite !nth_error_app2, !nth_error_repeat' by lia. rewrite HL.
      destruct (j - size <? 34 - size)%nat eqn:?; destruct (j - digits - size <? 34 - (size + digits))%nat eqn:?; reflexivity || lia.
    + rewrite H2 by lia. now rewrite !nth_error_app1 by lia.
Qed.

Lemma shl_block v bits ov : blk v -> 0 < bits < 32 -> 0 <= ov < 2 ^ bits ->
  let res := (v * 2 ^ bits) mod 2 ^ 64 in
  let w := (res mod block + ov) mod block in
  let ov' := (res / block) mod block in
  blk w /\ 0 <= ov' < 2 ^ bits /\ w + 2 ^ 32 * ov' = v * 2 ^ bits + ov.
Proof.
  intros Hv Hb Ho. cbv zeta. unfold block. set (p := 2 ^ bits) in *. set (q := 2 ^ (32 - bits)).
  assert (PQ : p * q = 2 ^ 32) by (unfold p, q; rewrite <- Z.pow_add_r by lia; f_equal; lia).
  assert (Hp : 0 < p) by (apply Z.pow_pos_nonneg; lia). assert (Hq : 0 < q) by (apply Z.pow_pos_nonneg; lia).
  assert (Hp32 : p <= 2 ^ 32) by nia.
  rewrite (Z.mod_small (v * p)) by (change (2 ^ 64) with (2 ^ 32 * 2 ^ 32); nia).
  assert (EV := Z.div_mod v q ltac:(lia)). assert (MV := Z.mod_pos_bound v q Hq).
  assert (ED : v * p / 2 ^ 32 = v / q) by (rewrite <- PQ, Z.mul_comm, Z.div_mul_cancel_l by lia; reflexivity).
  assert (EM : (v * p) mod 2 ^ 32 = p * (v mod q)) by (rewrite <- PQ, (Z.mul_comm v), Z.mul_mod_distr_l by lia; reflexivity).
  assert (DV : 0 <= v / q < p) by (split; [apply Z.div_pos; lia|apply Z.div_lt_upper_bound; lia]).
  rewrite ED, EM. rewrite (Z.mod_small (v / q)) by lia. rewrite Z.mod_small by nia. split; [nia|]. split; [lia|]. rewrite <- PQ. nia.
Qed.

Lemma shl_loop_spec bits : 0 < bits < 32 -> forall n pre cur i ov,
  length pre = i -> (n <= length cur)%nat -> Forall (fun x => blk x) cur -> 0 <= ov < 2 ^ bits ->
  exists ov' lo,
    shl_loop n (pre ++ cur) i bits ov = Some (pre ++ lo ++ skipn n cur, ov') /\
    length lo = n /\ Forall (fun x => blk x) lo /\ 0 <= ov' < 2 ^ bits /\
    num lo + pw n * ov' = num (firstn n cur) * 2 ^ bits + ov.
Proof.
  intros HB. induction n as [|n IH]; intros pre cur i c Hp H1 F1 Hc.
  - exists c, []. cbn [shl_loop skipn firstn num app length]. rewrite pw_0.
    split; [reflexivity|]. split; [reflexivity|]. split; [constructor|]. split; [exact Hc|lia].
  - destruct cur as [|x cur]; [cbn in H1; lia|].
    cbn [shl_loop]. rewrite (nth_mid pre) by assumption. cbn [obind].
    inversion F1 as [|? ? Hx F1']; subst.
    assert (S1 := shl_block x bits c Hx HB Hc). cbv zeta in S1. destruct S1 as (Hv & Hc1 & S1).
    cbv zeta. rewrite store_mid by reflexivity. cbn [obind].
    set (v := ((x * 2 ^ bits) mod 2 ^ 64 mod block + c) mod block) in *. set (c1 := ((x * 2 ^ bits) mod 2 ^ 64 / block) mod block) in *.
    clearbody v c1.
    destruct (IH (pre ++ [v]) cur (S (length pre)) c1) as (c' & lo & E & Hl & FL & Hc' & N); try assumption.
    + rewrite app_length. cbn. lia.
    + cbn in H1. lia.
    + rewrite <- !app_assoc in E. cbn [app] in E. rewrite E.
      exists c', (v :: lo). cbn [length firstn skipn num app]. rewrite pw_S.
      split; [reflexivity|]. split; [lia|]. split; [now constructor|]. split; [assumption|]. nia.
Qed.

Theorem bn_mul_pow2_correct a va e : represents a va -> 0 < va -> bn_fits (va * 2 ^ Z.of_nat e) ->
  exists b, bn_mul_pow2 a e = Ok b /\ represents b (va * 2 ^ Z.of_nat e).
Proof.
  intros Ha Hpos HF. destruct (represents_elim a va Ha) as (lo & EB & HL & HS & FL & HN & HV & HD).
  assert (HS1 : (0 < bn_size a)%nat) by (destruct (bn_size a); [rewrite pw_0 in HV; lia|lia]).
  destruct HD as [HD|HD]; [lia|].
  unfold bn_mul_pow2. assert (D := Nat.div_mod e 32 ltac:(lia)). assert (M := Nat.mod_upper_bound e 32 ltac:(lia)).
  set (q := (e / 32)%nat) in *. set (r := (e mod 32)%nat) in *. clearbody q r.
  assert (E2 : 2 ^ Z.of_nat e = pw q * 2 ^ Z.of_nat r).
  { unfold pw. rewrite D, Nat2Z.inj_add, Z.pow_add_r by lia. rewrite Nat2Z.inj_mul. reflexivity. }
  rewrite E2 in *. assert (P1 := pw_pos q). assert (P2 : 0 < 2 ^ Z.of_nat r) by (apply Z.pow_pos_nonneg; lia).
  assert (HQ : (bn_size a + q <= 34)%nat).
  { unfold bn_fits in HF. rewrite <- pw_34 in HF.
    assert (pw (bn_size a - 1 + q) < pw 34) by (rewrite pw_add; nia). assert (X := pw_lt_inv _ _ H). lia. }
  set (size := (bn_size a + q)%nat) in *.
  set (lo1 := repeat 0 q ++ lo).
  assert (L1 : length lo1 = size) by (unfold lo1; rewrite app_length, repeat_length; unfold size; lia).
  assert (F1 : Forall (fun x => blk x) lo1) by (apply Forall_app; split; [apply blk_zeros|exact FL]).
  assert (N1 : num lo1 = pw q * va) by (unfold lo1; rewrite num_app, num_zeros, repeat_length, HN; lia).
  assert (D1 : size = O \/ pw (size - 1) <= pw q * va).
  { right. unfold size. replace (bn_size a + q - 1)%nat with (q + (bn_size a - 1))%nat by lia. rewrite pw_add. nia. }
  assert (U1 : pw q * va < pw size).
  { unfold size. rewrite Nat.add_comm, pw_add. nia. }
  assert (R1 : represents (mk_bn size (lo1 ++ repeat 0 (34 - size))) (pw q * va)).
  { apply represents_intro; try assumption.
    - rewrite app_length, repeat_length. lia.
    - apply Forall_app. split; [assumption|apply blk_zeros].
    - rewrite num_app, num_zeros. lia. }
  assert (ESTEP : (if (0 <? q)%nat then
                 odo base <- shift_loop (bn_size a) (bn_base a) q ;;
                 odo base <- zero_loop q base 0 ;;
                 Some (mk_bn (bn_size a + q) base)
               else Some a) = Some (mk_bn size (lo1 ++ repeat 0 (34 - size)))).
  { destruct (0 <? q)%nat eqn:GQ.
    - rewrite EB. rewrite shift_blocks by (assumption || lia). unfold lo1. rewrite <- app_assoc. reflexivity.
    - assert (q = 0%nat) by lia. subst q. unfold lo1, size. cbn [repeat app]. rewrite Nat.add_0_r, <- EB. now destruct a. }
  fold size in ESTEP. rewrite ESTEP. cbn [obind bn_size bn_base].
  destruct (0 <? Z.of_nat r) eqn:GR.
  - destruct (shl_loop_spec (Z.of_nat r) ltac:(lia) size [] (lo1 ++ repeat 0 (34 - size)) 0 0) as (ov & lo2 & E & Hl & FL2 & Hov & N).
    + reflexivity.
    + rewrite app_length. lia.
    + apply Forall_app. split; [assumption|apply blk_zeros].
    + lia.
    + cbn [app] in E. rewrite E. cbn [obind].
      rewrite firstn_app, firstn_all2, L1, Nat.sub_diag, firstn_O, app_nil_r, N1 in N by lia.
      rewrite skipn_app, skipn_all2, L1, Nat.sub_diag by lia. cbn [app skipn].
      assert (P32 : 2 ^ Z.of_nat r <= 2 ^ 32) by (apply Z.pow_le_mono_r; lia).
      destruct (with_carry (lo2 ++ repeat 0 (34 - size)) size lo2 ov (va * (pw q * 2 ^ Z.of_nat r))) as (b & E1 & R2); try assumption; try reflexivity.
      * lia.
      * rewrite N. ring.
      * destruct D1 as [|D1]; [now left|right; nia].
      * rewrite E1. exists b. now split.
  - assert (r = 0%nat) by lia. subst r. change (2 ^ Z.of_nat 0) with 1. eexists. split; [reflexivity|].
    replace (va * (pw q * 1)) with (pw q * va) by ring. exact R1.
Qed.

(** ** Comparison *)
Lemma firstn_snoc {A} (l : list A) n x : nth_error l n = Some x -> firstn (S n) l = firstn n l ++ [x].
Proof.
  revert n. induction l as [|y l IH]; intros [|n] H; cbn in *; try discriminate.
  - injection H as ->. reflexivity.
  - rewrite <- (IH n H). reflexivity.
Qed.

Lemma compare_loop_spec a b : Forall (fun x => blk x) a -> Forall (fun x => blk x) b ->
  forall n, (n <= length a)%nat -> (n <= length b)%nat ->
  compare_loop n a b = Some (num (firstn n a) ?= num (firstn n b)).
Proof.
  intros FA FB. induction n as [|n IH]; intros HA HB; [reflexivity|].
  cbn [compare_loop]. destruct (nth_error a n) as [x|] eqn:EA; [|apply nth_error_None in EA; lia].
  destruct (nth_error b n) as [y|] eqn:EB; [|apply nth_error_None in EB; lia]. cbn [obind].
  rewrite (firstn_snoc a n x EA), (firstn_snoc b n y EB), !num_app, !firstn_length. cbn [num].
  replace (Nat.min n (length a)) with n by lia. replace (Nat.min n (length b)) with n by lia.
  assert (BA := num_bound _ (Forall_firstn' _ n _ FA)). assert (BB := num_bound _ (Forall_firstn' _ n _ FB)).
  rewrite firstn_length in BA, BB. replace (Nat.min n (length a)) with n in BA by lia. replace (Nat.min n (length b)) with n in BB by lia.
  assert (P := pw_pos n). rewrite !Z.mul_0_r, !Z.add_0_r.
  destruct (y <? x) eqn:G1; [|destruct (x <? y) eqn:G2].
  - f_equal. symmetry. apply Z.compare_gt_iff. nia.
  - f_equal. symmetry. apply Z.compare_lt_iff. nia.
  - rewrite IH by lia. f_equal. assert (x = y) by lia. subst y.
    rewrite !(Z.add_comm _ (pw n * x)). symmetry. apply Zcompare_plus_compat.
Qed.

Theorem bn_compare_correct a b va vb : represents a va -> represents b vb -> bn_compare a b = Ok (va ?= vb).
Proof.
  intros Ha Hb. destruct (represents_base a va Ha) as (LA & FA & NA). destruct (represents_base b vb Hb) as (LB & FB & NB).
  destruct (represents_size a va Ha) as (UA & DA & SA). destruct (represents_size b vb Hb) as (UB & DB & SB).
  assert (VA := num_bound _ FA). assert (VB := num_bound _ FB).
  unfold bn_compare. destruct (bn_size b <? bn_size a)%nat eqn:G1; [|destruct (bn_size a <? bn_size b)%nat eqn:G2].
  - f_equal. symmetry. apply Z.compare_gt_iff. destruct DA as [DA|DA]; [lia|].
    assert (P := pw_le (bn_size b) (bn_size a - 1) ltac:(lia)). lia.
  - f_equal. symmetry. apply Z.compare_lt_iff. destruct DB as [DB|DB]; [lia|].
    assert (P := pw_le (bn_size a) (bn_size b - 1) ltac:(lia)). lia.
  - rewrite compare_loop_spec by (assumption || lia). cbn [out_of_bounds].
    destruct (num_high (bn_base a) (bn_size a) FA ltac:(lia)) as [A1 _]; [lia|].
    destruct (num_high (bn_base b) (bn_size a) FB ltac:(lia)) as [B1 _]; [replace (bn_size a) with (bn_size b) by lia; lia|].
    rewrite A1, B1, NA, NB. reflexivity.
Qed.

(** ** Zero, construction, division *)
Theorem bn_is_zero_correct a va : represents a va -> bn_is_zero a = (va =? 0).
Proof.
  intros Ha. destruct (represents_base a va Ha) as (LA & FA & <-). unfold bn_is_zero.
  destruct (num (bn_base a) =? 0) eqn:E.
  - apply Z.eqb_eq in E. rewrite (num_zero_all _ FA E). generalize (length (bn_base a)). intros n.
    induction n as [|n IH]; [reflexivity|exact IH].
  - apply Z.eqb_neq in E. destruct (forallb _ _) eqn:F; [|reflexivity]. exfalso. apply E.
    rewrite forallb_forall in F. replace (bn_base a) with (repeat 0 (length (bn_base a))); [apply num_zeros|].
    symmetry. apply Forall_eq_repeat. apply Forall_forall. intros x Hx. specialize (F x Hx). lia.
Qed.

Theorem bn_of_u32_correct v : 0 < v < 2 ^ 32 -> represents (bn_of_u32 v) v.
Proof.
  intros H. unfold bn_of_u32. apply represents_intro.
  - reflexivity.
  - constructor; [lia|apply blk_zeros].
  - lia.
  - cbn [num]. rewrite num_zeros. lia.
  - rewrite pw_S, pw_0. lia.
  - right. change (1 - 1)%nat with 0%nat. rewrite pw_0. lia.
Qed.

Theorem bn_of_u64_correct v : 0 < v < 2 ^ 64 -> represents (bn_of_u64 v) v.
Proof.
  intros H. unfold bn_of_u64, block. set (hi := (v / 2 ^ 32) mod 2 ^ 32).
  assert (HD : 0 <= v / 2 ^ 32 < 2 ^ 32) by (split; [apply Z.div_pos; lia|apply Z.div_lt_upper_bound; lia]).
  assert (EH : hi = v / 2 ^ 32) by (apply Z.mod_small; exact HD). clearbody hi. subst hi.
  assert (M := Z.mod_pos_bound v (2 ^ 32) ltac:(lia)). assert (D := Z.div_mod v (2 ^ 32) ltac:(lia)).
  apply represents_intro.
  - reflexivity.
  - constructor; [lia|]. constructor; [lia|apply blk_zeros].
  - destruct (0 <? v / 2 ^ 32); lia.
  - cbn [num]. rewrite num_zeros. lia.
  - destruct (0 <? v / 2 ^ 32) eqn:G; cbn [Nat.add]; rewrite ?pw_S, pw_0; lia.
  - right. destruct (0 <? v / 2 ^ 32) eqn:G; cbn [Nat.add Nat.sub]; rewrite ?pw_S, pw_0; lia.
Qed.

Lemma div_rem_loop_spec other : 0 < other < 2 ^ 32 -> forall n base r, (n <= length base)%nat ->
  Forall (fun x => blk x) base -> 0 <= r < other ->
  exists base' r', div_rem_loop n base other r = Some (base', r') /\ length base' = length base /\
    Forall (fun x => blk x) base' /\ skipn n base' = skipn n base /\ 0 <= r' < other /\
    num (firstn n base') * other + r' = num (firstn n base) + pw n * r.
Proof.
  intros HO. induction n as [|n IH]; intros base r HL HF HR.
  - exists base, r. cbn [div_rem_loop firstn num]. rewrite pw_0. intuition lia.
  - cbn [div_rem_loop]. destruct (nth_error base n) as [b|] eqn:E; [|apply nth_error_None in E; lia]. cbn [obind].
    assert (Hb : blk b) by (rewrite Forall_forall in HF; apply HF; eapply nth_error_In; exact E). unfold block.
    cbv zeta. rewrite (Z.mod_small (r * 2 ^ 32)) by (change (2 ^ 64) with (2 ^ 32 * 2 ^ 32); nia).
    rewrite (Z.mod_small (b + r * 2 ^ 32)) by (change (2 ^ 64) with (2 ^ 32 * 2 ^ 32); nia).
    set (v := b + r * 2 ^ 32). assert (Hv : 0 <= v) by (unfold v; lia).
    assert (M := Z.mod_pos_bound v other ltac:(lia)). assert (D := Z.div_mod v other ltac:(lia)).
    assert (Q : 0 <= v / other < 2 ^ 32) by (split; [apply Z.div_pos; lia|apply Z.div_lt_upper_bound; unfold v; nia]).
    rewrite (Z.mod_small (v / other)) by lia.
    replace (v - v / other * other) with (v mod other) by lia. rewrite (Z.mod_small (v mod other)) by (change (2 ^ 64) with (2 ^ 32 * 2 ^ 32); lia).
    destruct (nth_error_split base n E) as (l1 & l2 & EB & EL).
    rewrite EB, store_mid by assumption. cbn [obind].
    set (q := v / other) in *. set (r1 := v mod other) in *. assert (EV : v = b + r * 2 ^ 32) by reflexivity. clearbody v q r1.
    assert (F3 : Forall (fun x => blk x) (l1 ++ q :: l2)).
    { rewrite EB in HF. apply Forall_app in HF. destruct HF as [F1 F2]. inversion F2; subst. apply Forall_app. split; [assumption|]. now constructor. }
    destruct (IH (l1 ++ q :: l2) r1) as (b2 & r2 & E2 & L2 & F2 & S2 & R2 & N2); [rewrite app_length; lia|exact F3|lia|].
    exists b2, r2. split; [exact E2|]. split; [rewrite L2, !app_length; reflexivity|]. split; [exact F2|].
    assert (SK : forall x, skipn n (l1 ++ x :: l2) = x :: l2).
    { intros x. rewrite skipn_app, skipn_all2 by lia. rewrite EL, Nat.sub_diag. reflexivity. }
    assert (FI : forall x, firstn n (l1 ++ x :: l2) = l1).
    { intros x. rewrite firstn_app, firstn_all2 by lia. rewrite EL, Nat.sub_diag, firstn_O. apply app_nil_r. }
    rewrite SK in S2. rewrite FI in N2.
    assert (NB : nth_error b2 n = Some q).
    { rewrite <- (firstn_skipn n b2), S2. apply nth_mid. rewrite firstn_length, L2, app_length. lia. }
    assert (SS : forall (l : list Z), skipn (S n) l = skipn 1 (skipn n l)).
    { clear. induction n as [|n IH]; intros l; [reflexivity|]. destruct l as [|x l]; [reflexivity|]. exact (IH l). }
    split; [rewrite (SS b2), (SS (l1 ++ b :: l2)), S2, SK; reflexivity|].
    split; [exact R2|].
    rewrite (firstn_snoc b2 n q NB). rewrite (firstn_snoc (l1 ++ b :: l2) n b (nth_mid l1 b l2 n EL)). rewrite FI.
    rewrite !num_app, firstn_length, L2, app_length. cbn [length num]. replace (Nat.min n (length l1 + S (length l2))) with n by lia.
    rewrite EL, pw_S. nia.
Qed.

(** Quotient and remainder are exact; leading zero blocks may remain in the quotient. *)
Theorem bn_div_rem_small_correct a va other : represents a va -> 0 < other < 2 ^ 32 ->
  exists b, bn_div_rem_small a other = Ok (va mod other, b) /\ bn_wf b /\ bn_value b = va / other.
Proof.
  intros Ha HO. destruct (represents_base a va Ha) as (LA & FA & NA). destruct (represents_size a va Ha) as (UA & DA & SA).
  unfold bn_div_rem_small. replace (other =? 0) with false by lia.
  destruct (div_rem_loop_spec other HO (bn_size a) (bn_base a) 0) as (b' & r' & E & L & F & S & R & N); [lia|exact FA|lia|].
  rewrite E. cbn [obind out_of_bounds].
  destruct (num_high (bn_base a) (bn_size a) FA ltac:(lia)) as [A1 A2]; [lia|].
  assert (SP := num_split (bn_size a) b' ltac:(lia)). rewrite S, A2 in SP. rewrite A1, NA in N.
  assert (EV : num b' * other + r' = va) by lia.
  assert (EQ : va / other = num b') by (symmetry; apply (Z.div_unique va other (num b') r'); lia).
  assert (ER : va mod other = r') by (symmetry; apply (Z.mod_unique va other (num b') r'); lia).
  eexists. split; [rewrite ER, Z.mod_small by (unfold block; lia); reflexivity|].
  assert (BN := num_bound b' F). unfold bn_wf, bn_value. cbn [bn_base bn_size].
  split; [|lia]. split; [lia|]. split; [exact F|]. split; [lia|]. fold (pw (bn_size a)). nia.
Qed.

(** ** The product: the blocks are exact (the size need not be) *)
Definition blocks_ok (b : bignum) : Prop := length (bn_base b) = 34%nat /\ Forall (fun x => blk x) (bn_base b).

Lemma add_small_loop_spec : forall fuel pre cur i c, length pre = i -> (length cur < fuel)%nat ->
  Forall (fun x => blk x) cur ->
  exists cur' i' c', add_small_loop fuel (pre ++ cur) i c = Some (pre ++ cur', i') /\ length cur' = length cur /\
    Forall (fun x => blk x) cur' /\ num cur' + pw (length cur) * Z.b2z c' = num cur + Z.b2z c.
Proof.
  induction fuel as [|fuel IH]; intros pre cur i c Hp Hf HF; [lia|].
  cbn [add_small_loop]. rewrite app_length. destruct c; cbn [andb].
  - destruct (i <? length pre + length cur)%nat eqn:G.
    + destruct cur as [|x cur]; [cbn [length] in G; lia|]. rewrite nth_mid by assumption. cbn [obind].
      inversion HF as [|? ? Hx HF']; subst.
      assert (S1 := carrying_add_spec x 0 true Hx ltac:(lia)). destruct (carrying_add x 0 true) as [v c1]. destruct S1 as [Hv S1].
      rewrite store_mid by reflexivity. cbn [obind].
      destruct (IH (pre ++ [v]) cur (S (length pre)) c1) as (cur' & i' & c' & E & L & F & N); [rewrite app_length; cbn; lia|cbn in Hf; lia|assumption|].
      rewrite <- !app_assoc in E. cbn [app] in E. rewrite E. exists (v :: cur'), i', c'. cbn [length num]. rewrite pw_S.
      split; [reflexivity|]. split; [lia|]. split; [now constructor|]. nia.
    + destruct cur as [|x cur]; [|cbn [length] in G; lia]. exists [], i, true. cbn [length num]. rewrite pw_0.
      split; [reflexivity|]. split; [reflexivity|]. split; [constructor|reflexivity].
  - exists cur, i, false. split; [reflexivity|]. split; [reflexivity|]. split; [assumption|]. cbn [Z.b2z]. lia.
Qed.

Lemma add_small_at_value a i v : blocks_ok a -> blk v -> (i < 34)%nat -> bn_fits (bn_value a + pw i * v) ->
  exists b, bn_add_small_at a i v = Ok b /\ blocks_ok b /\ bn_value b = bn_value a + pw i * v.
Proof.
  intros [HL HF] Hv Hi Hfit. unfold bn_add_small_at.
  destruct (nth_error (bn_base a) i) as [x|] eqn:E; [|apply nth_error_None in E; lia]. cbn [obind].
  destruct (nth_error_split (bn_base a) i E) as (l1 & l2 & EB & EL).
  assert (HF' := HF). rewrite EB in HF'. apply Forall_app in HF'. destruct HF' as [F1 F2]. inversion F2 as [|? ? Hx F3]; subst.
  assert (S1 := carrying_add_spec x v false Hx Hv). destruct (carrying_add x v false) as [w c1]. destruct S1 as [Hw S1].
  rewrite EB, store_mid by reflexivity. cbn [obind].
  assert (LL : (length l1 + S (length l2) = 34)%nat) by (rewrite EB, app_length in HL; exact HL).
  destruct (add_small_loop_spec (S (length (l1 ++ w :: l2))) (l1 ++ [w]) l2 (S (length l1)) c1) as (cur & i' & c' & E' & L & F & N);
    [rewrite app_length; cbn; lia|rewrite app_length; cbn [length]; lia|assumption|].
  rewrite <- !app_assoc in E'. cbn [app] in E'. rewrite E'. cbn [obind out_of_bounds].
  eexists. split; [reflexivity|]. unfold blocks_ok, bn_value in *. cbn [bn_base bn_size]. rewrite EB in Hfit |- *.
  rewrite !num_app in *. cbn [num] in *. cbn [Z.b2z] in S1.
  assert (B1 := num_bound l1 F1). assert (BC := num_bound cur F). rewrite L in BC.
  assert (c' = false).
  { destruct c'; [exfalso|reflexivity]. cbn [Z.b2z] in N. unfold bn_fits in Hfit. rewrite <- pw_34 in Hfit.
    replace 34%nat with (length l1 + S (length l2))%nat in Hfit. rewrite pw_add, pw_S in Hfit.
    assert (P1 := pw_pos (length l1)). assert (P2 := pw_pos (length l2)). nia. }
  subst c'. cbn [Z.b2z] in N. split; [split|].
  - rewrite app_length. cbn [length]. lia.
  - apply Forall_app. split; [assumption|]. now constructor.
  - nia.
Qed.

Lemma mul_digits_inner_spec x i : blk x -> forall other j c prod,
  blocks_ok prod -> blk c -> Forall (fun x => blk x) other -> (i + j + length other <= 34)%nat ->
  bn_fits (bn_value prod + pw (i + j) * (x * num other + c)) ->
  exists c' b, mul_digits_inner other i j x c prod = Ok (c', b) /\ blocks_ok b /\ blk c' /\
    bn_value b + pw (i + j + length other) * c' = bn_value prod + pw (i + j) * (x * num other + c).
Proof.
  intros Hx. induction other as [|y other IH]; intros j c prod HP HC HF HI Hfit.
  - exists c, prod. cbn [mul_digits_inner length num]. rewrite Nat.add_0_r. split; [reflexivity|]. split; [assumption|]. split; [assumption|]. lia.
  - cbn [mul_digits_inner]. inversion HF as [|? ? Hy HF']; subst.
    assert (S1 := carrying_mul_spec x y c Hx Hy HC). destruct (carrying_mul x y c) as [v c1]. destruct S1 as (Hv & Hc1 & S1).
    cbn [num length] in *. assert (P := pw_pos (i + j)). assert (BO := num_bound other HF'). assert (EP := pw_S (i + j)).
    assert (VP : 0 <= bn_value prod) by (destruct HP as [_ HP2]; apply num_bound; exact HP2).
    assert (TOT : bn_value prod + pw (i + j) * (x * (y + 2 ^ 32 * num other) + c) =
                  bn_value prod + pw (i + j) * v + pw (S (i + j)) * (x * num other + c1)).
    { rewrite EP. replace (x * (y + 2 ^ 32 * num other) + c) with (v + 2 ^ 32 * c1 + 2 ^ 32 * (x * num other)) by lia. ring. }
    rewrite TOT in *.
    assert (POS : 0 <= pw (S (i + j)) * (x * num other + c1)) by (rewrite EP; nia).
    destruct (add_small_at_value prod (i + j) v HP Hv ltac:(lia)) as (b & E & HB & VB); [hide_bound; nia|].
    rewrite E. cbn [bind].
    destruct (IH (S j) c1 b HB Hc1 HF') as (c' & b' & E' & HB' & Hc' & VB'); [lia| |].
    + rewrite VB. replace (i + S j)%nat with (S (i + j)) by lia. exact Hfit.
    + exists c', b'. rewrite VB in VB'. replace (i + S j)%nat with (S (i + j)) in VB' by lia.
      replace (i + j + S (length other))%nat with (S (i + j) + length other)%nat by lia. auto.
Qed.

Lemma mul_digits_outer_spec big : Forall (fun x => blk x) big -> forall small i prod,
  blocks_ok prod -> Forall (fun x => blk x) small -> (i + length small + length big <= 35)%nat ->
  bn_fits (bn_value prod + pw i * (num small * num big)) ->
  exists b, mul_digits_outer small big i prod = Ok b /\ blocks_ok b /\
    bn_value b = bn_value prod + pw i * (num small * num big).
Proof.
  intros HB. assert (BB := num_bound big HB). induction small as [|x small IH]; intros i prod HP HF HI Hfit.
  - exists prod. cbn [mul_digits_outer num]. split; [reflexivity|]. split; [assumption|]. lia.
  - inversion HF as [|? ? Hx HF']; subst. cbn [mul_digits_outer num length] in *.
    assert (P := pw_pos i). assert (BS := num_bound small HF').
    assert (VP : 0 <= bn_value prod) by (destruct HP as [_ HP2]; apply num_bound; exact HP2).
    assert (TOT : bn_value prod + pw i * ((x + 2 ^ 32 * num small) * num big) =
                  bn_value prod + pw i * (x * num big) + pw (S i) * (num small * num big)) by (rewrite pw_S; ring).
    rewrite TOT in *. assert (POS : 0 <= pw (S i) * (num small * num big)) by (rewrite pw_S; nia).
    destruct (mul_digits_inner_spec x i Hx big 0 0 prod HP ltac:(lia) HB) as (c & b & E & HB1 & Hc & VB); [lia| |].
    { rewrite Nat.add_0_r, Z.add_0_r. hide_bound. nia. }
    rewrite Nat.add_0_r, Z.add_0_r in VB. rewrite E. cbn [bind].
    assert (VB0 : 0 <= bn_value b) by (destruct HB1 as [_ HP2]; apply num_bound; exact HP2).
    assert (P2 := pw_pos (i + length big)).
    assert (STEP : exists b', (if 0 <? c then bn_add_small_at b (i + length big) c else Ok b) = Ok b' /\ blocks_ok b' /\
        bn_value b' = bn_value prod + pw i * (x * num big)).
    { destruct (0 <? c) eqn:G.
      - destruct (add_small_at_value b (i + length big) c HB1 Hc) as (b' & E' & HB' & V').
        + apply pw_lt_inv. rewrite pw_34. hide_bound. nia.
        + rewrite VB. hide_bound. nia.
        + exists b'. rewrite E', V', VB. auto.
      - exists b. assert (c = 0) by lia. subst c. rewrite <- VB. split; [reflexivity|]. split; [assumption|]. lia. }
    destruct STEP as (b' & E' & HB' & V'). rewrite E'. cbn [bind].
    destruct (IH (S i) b' HB' HF') as (b2 & E2 & HB2 & V2); [lia|rewrite V'; exact Hfit|].
    exists b2. rewrite E2, V2, V'. auto.
Qed.

Theorem bn_mul_digits_value a va other : represents a va -> Forall (fun x => blk x) other ->
  (bn_size a + length other <= 35)%nat -> bn_fits (va * num other) ->
  exists b, bn_mul_digits a other = Ok b /\ length (bn_base b) = 34%nat /\ bn_value b = va * num other.
Proof.
  intros Ha HF HI Hfit. destruct (represents_elim a va Ha) as (lo & EB & HL & HS & FL & HN & HV & HD).
  unfold bn_mul_digits. assert (EM : firstn (bn_size a) (bn_base a) = lo).
  { rewrite EB, firstn_app, firstn_all2, HL, Nat.sub_diag, firstn_O, app_nil_r by lia. reflexivity. }
  rewrite EM. set (zero := mk_bn 1 (repeat 0 max_blocks)).
  assert (Z0 : bn_value zero = 0) by (apply num_zeros).
  assert (ZB : blocks_ok zero) by (split; [reflexivity|apply blk_zeros]).
  destruct (length other <? bn_size a)%nat.
  - destruct (mul_digits_outer_spec lo FL other 0 zero ZB HF) as (b & E & [HB _] & V); [lia|rewrite Z0, HN, pw_0; replace (0 + 1 * (num other * va)) with (va * num other) by ring; exact Hfit|].
    exists b. rewrite E, V, Z0, HN, pw_0. repeat split; [exact HB|ring].
  - destruct (mul_digits_outer_spec other HF lo 0 zero ZB FL) as (b & E & [HB _] & V); [lia|rewrite Z0, HN, pw_0; replace (0 + 1 * (va * num other)) with (va * num other) by ring; exact Hfit|].
    exists b. rewrite E, V, Z0, HN, pw_0. repeat split; [exact HB|ring].
Qed.
