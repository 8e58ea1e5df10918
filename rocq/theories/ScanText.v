(** Proofs about Scan.v: literal text, and fields for texts. *)
From Verif Require Import Base Conversion Reader Specs Format Scan.
From Verif Require Import Lib SpecNum SpecReader SpecSpecs SpecString SpecScan.
From Verif Require Import ConversionProofs ReaderProofs SpecsProofs StringProofs StringLoop ScanSpecs ScanNumber ScanInt.

(** ** Literal text *)
Lemma match_str T n s : (n <= length T)%nat ->
  (exists b, skipn n T = s ++ b /\ read_if_match_str (mk_reader T n) s = (Ok s, mk_reader T (n + length s))) \/
  ((forall b, skipn n T <> s ++ b) /\ exists e, read_if_match_str (mk_reader T n) s = (Err e, mk_reader T n) /\ (e = eof \/ e = invalid_data)).
Proof.
  intros HN. unfold read_if_match_str, cnt_remaining, view_remaining. cbn [rtext rpos]. destruct (length T - n <? length s)%nat eqn:EL.
  - right. split; [|eexists; split; [reflexivity|auto]]. intros b E. apply (f_equal (@length Z)) in E. rewrite skipn_length, app_length in E. lia.
  - destruct (prefixb s (skipn n T)) eqn:EP.
    + left. apply prefixb_spec in EP. destruct EP as (b & EP). exists b. split; [exact EP|]. rewrite EP, firstn_app_exact. reflexivity.
    + right. split; [|eexists; split; [reflexivity|auto]]. intros b E. assert (X : prefixb s (skipn n T) = true) by (apply prefixb_spec; eauto). congruence.
Qed.

Lemma literal_app lits rest : Forall plain_item lits -> literal_text (lits ++ rest) = literal_text lits ++ literal_text rest.
Proof. induction 1 as [|[c|c|] lits H HF IH]; cbn [app literal_text]; [reflexivity|now rewrite IH|now rewrite IH|contradiction]. Qed.

(** The end of a text: nothing, or the start of a field. *)
Definition field_start (F : list Z) : Prop := F = [] \/ exists c l, F = 123 :: c :: l /\ c <> 123.
Definition starts (F : list Z) : bool := match F with [] => false | _ => true end.

Lemma window {A} (T : list A) b q pend : skipn b T = pend ++ skipn q T -> (q <= length T)%nat -> (b <= q)%nat -> firstn (q - b) (skipn b T) = pend.
Proof.
  intros E HQ HB. assert (L := f_equal (@length A) E). rewrite app_length, !skipn_length in L. rewrite E. replace (q - b)%nat with (length pend) by lia. apply firstn_app_exact.
Qed.

Lemma match_part_at T q I i vars b pend : skipn b T = pend ++ skipn q T -> (q <= length T)%nat -> (b <= q)%nat -> (i <= length I)%nat -> forall fr, rtext fr = T ->
  (exists s, skipn i I = pend ++ s /\ match_part (fr, (mk_reader I i, vars)) b q = (Ok tt, (fr, (mk_reader I (i + length pend), vars)))) \/
  ((forall s, skipn i I <> pend ++ s) /\ exists e, match_part (fr, (mk_reader I i, vars)) b q = (Err e, (fr, (mk_reader I i, vars)))).
Proof.
  intros E HQ HB HI fr HT. unfold match_part. rewrite HT, (window T b q pend E HQ HB).
  destruct (match_str I i pend HI) as [(s & ES & ->)|(NS & e & -> & _)]; [left|right]; [exists s; split; [exact ES|reflexivity]|]. split; [exact NS|]. exists e. reflexivity.
Qed.

Lemma scan_text_at T I : forall lits fuel q i vars b pend F, Forall plain_item lits -> skipn q T = text_of lits ++ F -> field_start F -> (length lits < fuel)%nat ->
  skipn b T = pend ++ skipn q T -> (b <= q <= length T)%nat -> (i <= length I)%nat ->
  let want := pend ++ literal_text lits in
  (exists s, skipn i I = want ++ s /\ scan_text fuel (mk_reader T q, (mk_reader I i, vars)) b =
     (Ok (starts F), (mk_reader T (q + length (text_of lits) + (if starts F then 1 else 0)), (mk_reader I (i + length want), vars)))) \/
  ((forall s, skipn i I <> want ++ s) /\ exists e fr r, scan_text fuel (mk_reader T q, (mk_reader I i, vars)) b = (Err e, (fr, (r, vars))) /\ rtext r = I /\ (i <= rpos r <= length I)%nat).
Proof.
  induction lits as [|it lits IH]; intros fuel q i vars b pend F HF HS HE HFu HB HQ HI want; (destruct fuel as [|fuel]; [cbn in HFu; lia|]); cbn [scan_text rtext rpos].
  - cbn [text_of flat_map app] in HS. unfold want. cbn [literal_text]. rewrite app_nil_r. cbn [text_of flat_map length]. rewrite Nat.add_0_r, nth_skip, HS. destruct HE as [-> |(c & l & -> & NC)].
    + cbn [starts]. rewrite Nat.add_0_r. destruct (b =? q)%nat eqn:EB.
      * assert (b = q) as -> by lia. assert (pend = []) as -> by (rewrite HS, app_nil_r in HB; congruence). left. exists (skipn i I). split; [reflexivity|]. cbn. now rewrite Nat.add_0_r.
      * assert (HQ2 : (q <= length T)%nat) by lia. assert (HB2 : (b <= q)%nat) by lia.
        destruct (match_part_at T q I i vars b pend HB HQ2 HB2 HI (mk_reader T q) eq_refl) as [(s & ES & ->)|(NS & e & ->)]; cbn [sbind].
        -- left. exists s. auto.
        -- right. split; [exact NS|]. exists e, (mk_reader T q), (mk_reader I i). cbn. auto.
    + cbn [starts]. change ch_lbrace with 123. change (123 =? 123) with true. cbv iota. rewrite nth_skip, (skip_succ _ _ _ _ HS). replace (c =? 123) with false by lia.
      unfold set_pos. cbn [rtext rpos]. replace (S q - 1)%nat with q by lia. rewrite Nat.add_1_r. destruct (b =? q)%nat eqn:EB.
      * assert (b = q) as -> by lia. assert (pend = []) as ->.
        { rewrite HS in HB. apply (f_equal (@length Z)) in HB. rewrite app_length in HB. destruct pend; [reflexivity|cbn in HB; lia]. }
        left. exists (skipn i I). split; [reflexivity|]. cbn. now rewrite Nat.add_0_r.
      * assert (HQ2 : (q <= length T)%nat) by lia. assert (HB2 : (b <= q)%nat) by lia.
        destruct (match_part_at T q I i vars b pend HB HQ2 HB2 HI (mk_reader T (S q)) eq_refl) as [(s & ES & ->)|(NS & e & ->)]; cbn [sbind].
        -- left. exists s. auto.
        -- right. split; [exact NS|]. exists e, (mk_reader T (S q)), (mk_reader I i). cbn. auto.
  - inversion HF as [|? ? Hi HF']; subst. cbn [length] in HFu. rewrite nth_skip. unfold want. change ch_lbrace with 123. change ch_rbrace with 125.
    destruct it as [c|c|]; [| |contradiction]; cbn [plain_item item_ok] in Hi; cbn [text_of flat_map item_text app] in HS; fold (text_of lits) in HS; rewrite HS; cbn [literal_text text_of flat_map item_text app length]; fold (text_of lits).
    + unfold is_brace in Hi. replace (c =? 123) with false by lia. replace (c =? 125) with false by lia. assert (H2 := skip_succ _ _ _ _ HS). assert (LQ := skip_bound _ _ _ _ HS). unfold set_pos. cbn [rtext].
      assert (HB' : skipn b T = (pend ++ [c]) ++ skipn (S q) T) by (rewrite HB, HS, H2, <- app_assoc; reflexivity).
      assert (HQ' : (b <= S q <= length T)%nat) by lia. assert (HFu' : (length lits < fuel)%nat) by lia.
      assert (X := IH fuel (S q) i vars b (pend ++ [c]) F HF' H2 HE HFu' HB' HQ' HI). cbv zeta in X. rewrite <- !app_assoc in X. cbn [app] in X.
      replace (q + S (length (text_of lits)))%nat with (S q + length (text_of lits))%nat by lia. exact X.
    + assert (H2 := skip_succ _ _ _ _ HS). assert (LQ := skip_bound _ _ _ _ H2). assert (H3 := skip_succ _ _ _ _ H2).
      assert (HB' : skipn b T = (pend ++ [c]) ++ skipn (S q) T) by (rewrite HB, HS, H2, <- app_assoc; reflexivity).
      assert (HQ2 : (S q <= length T)%nat) by lia. assert (HB2 : (b <= S q)%nat) by lia. assert (HFu' : (length lits < fuel)%nat) by lia.
      assert (GO : scan_text (S fuel) (mk_reader T q, (mk_reader I i, vars)) b =
                   sdo (_, st) <- match_part (mk_reader T (S q), (mk_reader I i, vars)) b (S q) ;; scan_text fuel (mk_reader T (S (S q)), snd st) (S (S q))).
      { cbn [scan_text rtext rpos]. rewrite nth_skip, HS. change ch_lbrace with 123. change ch_rbrace with 125. destruct Hi as [-> | ->].
        - change (123 =? 123) with true. cbv iota. rewrite nth_skip, H2. change (123 =? 123) with true. cbv iota. reflexivity.
        - change (125 =? 123) with false. change (125 =? 125) with true. cbv iota. unfold set_pos. cbn [rtext]. replace (S q <? length T)%nat with true by lia. reflexivity. }
      cbn [scan_text rtext rpos] in GO. rewrite nth_skip, HS in GO. change ch_lbrace with 123 in GO. change ch_rbrace with 125 in GO. rewrite GO. clear GO.
      destruct (match_part_at T (S q) I i vars b (pend ++ [c]) HB' HQ2 HB2 HI (mk_reader T (S q)) eq_refl) as [(s & ES & ->)|(NS & e & ->)]; cbn [sbind snd].
      * assert (LI : (i + length (pend ++ [c]) <= length I)%nat) by (apply (f_equal (@length Z)) in ES; rewrite skipn_length, app_length in ES; rewrite app_length in *; cbn in *; lia).
        assert (HQ' : (S (S q) <= S (S q) <= length T)%nat) by lia.
        assert (X := IH fuel (S (S q)) (i + length (pend ++ [c]))%nat vars (S (S q)) [] F HF' H3 HE HFu' eq_refl HQ' LI). cbn [app] in X. cbv zeta in X. rewrite (skip_part _ _ _ _ ES) in X.
        replace (q + S (S (length (text_of lits))))%nat with (S (S q) + length (text_of lits))%nat by lia.
        destruct X as [(s2 & -> & ->)|(NS & e & fr & r & -> & HT & HR)].
        -- left. exists s2. split; [rewrite ES, <- !app_assoc; reflexivity|]. do 4 f_equal. rewrite !app_length. cbn [length]. lia.
        -- right. split; [|exists e, fr, r; split; [reflexivity|split; [exact HT|lia]]]. intros s2 E2. apply (NS s2). rewrite ES in E2. rewrite <- !app_assoc in E2. apply app_inv_head in E2. injection E2 as E2. exact E2.
      * right. split; [|exists e, (mk_reader T (S q)), (mk_reader I i); cbn; auto]. intros s2 E2. apply (NS (literal_text lits ++ s2)). rewrite E2, <- !app_assoc. reflexivity.
Qed.

(** ** Fields for texts *)

Definition starts_item (its : list item) : Prop := match its with Literal _ :: _ => False | _ => True end.
Lemma split_literals its : Forall open_item its -> exists pre tl, its = map Literal pre ++ tl /\ Forall (fun c => ~ is_brace c) pre /\ starts_item tl /\ Forall open_item tl.
Proof.
  induction 1 as [|i its Hi HF IH]; [exists [], []; repeat constructor|]. destruct i as [c|c|index colon sp].
  - destruct IH as (pre & tl & -> & HP & HT & HO). exists (c :: pre), tl. repeat split; auto.
  - exists [], (Brace c :: its). repeat split; auto.
  - exists [], (Field index colon sp :: its). repeat split; auto.
Qed.
Lemma text_literals pre : text_of (map Literal pre) = pre.
Proof. induction pre as [|c pre IH]; cbn; [reflexivity|]. f_equal. exact IH. Qed.
Lemma literal_literals pre tl : literal_text (map Literal pre ++ tl) = pre ++ literal_text tl.
Proof. induction pre as [|c pre IH]; cbn; [reflexivity|]. now rewrite IH. Qed.

Definition until_str (r : reader) (until : list Z) : outcome unit * (reader * option (list Z)) := assign_view (read_until_str r until keep).

Definition is_brace_b (c : Z) : bool := mem [ch_lbrace; ch_rbrace] c.
Lemma brace_b_false c : ~ is_brace c -> is_brace_b c = false.
Proof. unfold is_brace, is_brace_b, mem. cbn [existsb]. change ch_lbrace with 123. change ch_rbrace with 125. lia. Qed.
Lemma braces_none pre : Forall (fun c => ~ is_brace c) pre -> Forall (fun c => is_brace_b c = false) pre.
Proof. apply Forall_impl. intros c. apply brace_b_false. Qed.

Lemma read_string_cases s T p I i pre tl : sc_width s = -1 -> skipn p T = text_of (map Literal pre ++ tl) -> (p <= length T)%nat -> Forall (fun c => ~ is_brace c) pre -> starts_item tl -> Forall open_item tl ->
  read_string s (mk_reader T p) (mk_reader I i) =
  match tl with
  | [] => match pre with [] => (Ok tt, (mk_reader I (length I), Some (skipn i I))) | _ => until_str (mk_reader I i) pre end
  | Brace _ :: _ => read_string_complex (mk_reader I i) (text_of tl)
  | _ => until_str (mk_reader I i) pre
  end.
Proof.
  intros HW HS HP HB HT HO. unfold read_string. rewrite HW. change (negb (-1 =? -1)) with false. cbv iota. rewrite text_of_app, text_literals in HS.
  unfold read_until_any_of. rewrite read_until_pos_pred. change (mem [ch_lbrace; ch_rbrace]) with is_brace_b.
  destruct (read_until_spec (mk_reader T p) is_brace_b keep HP) as (U1 & U2 & U3). change (view_remaining (mk_reader T p)) with (skipn p T) in *. cbn [rpos] in U3. rewrite HS in *.
  destruct tl as [|it tl].
  - cbn [text_of flat_map] in *. rewrite app_nil_r in *. destruct pre as [|c pre]; [rewrite U1 by reflexivity; reflexivity|].
    rewrite U2; [|discriminate|now apply braces_none]. cbn [ignore_eof keep]. unfold set_pos. cbn [rtext rpos].
    assert (L := f_equal (@length Z) HS). rewrite skipn_length in L. assert (RE : read_char (mk_reader T (p + length (c :: pre))) = (Err eof, mk_reader T (p + length (c :: pre)))).
    { destruct (reader_at T (p + length (c :: pre)) ltac:(lia)) as [(_ & _ & X)|(x & l & X & _)]; [exact X|]. apply skip_bound in X. lia. }
    rewrite RE. reflexivity.
  - assert (Hi := Forall_inv HO). destruct it as [c|c|index colon sp]; [contradiction| |].
    + cbn [open_item item_ok] in Hi. change (text_of (Brace c :: tl)) with (c :: c :: text_of tl) in *.
      rewrite (U3 pre c (c :: text_of tl) eq_refl (braces_none _ HB)) by (destruct Hi as [-> | ->]; reflexivity). cbn [include_delimiter keep_delimiter keep]. unfold set_pos. cbn [rtext].
      assert (E1 := skip_part _ _ _ _ HS). destruct (read_at _ _ _ _ E1) as [-> E2]. destruct (read_at _ _ _ _ E2) as [-> E3].
      replace ((c =? ch_lbrace) && negb (c =? ch_lbrace)) with false by (destruct (c =? ch_lbrace); reflexivity).
      unfold unpop. cbn [rpos rtext]. replace (2 <=? S (S (p + length pre)))%nat with true by lia. unfold view_remaining, set_pos. cbn [rpos rtext]. replace (S (S (p + length pre)) - 2)%nat with (p + length pre)%nat by lia. rewrite E1. reflexivity.
    + destruct Hi as (c & l & EI & NC). change (text_of (Field index colon sp :: tl)) with (item_text (Field index colon sp) ++ text_of tl) in *. rewrite EI in *. cbn [app] in *.
      rewrite (U3 pre 123 (c :: l ++ text_of tl) eq_refl (braces_none _ HB) eq_refl). cbn [include_delimiter keep_delimiter keep]. unfold set_pos. cbn [rtext].
      assert (E1 := skip_part _ _ _ _ HS). destruct (read_at _ _ _ _ E1) as [-> E2]. destruct (read_at _ _ _ _ E2) as [-> E3].
      change ch_lbrace with 123. replace ((123 =? 123) && negb (c =? 123)) with true by lia. reflexivity.
Qed.

Lemma until_cases I i d : (i <= length I)%nat ->
  (skipn i I = [] /\ until_str (mk_reader I i) d = (Err eof, (mk_reader I i, None))) \/
  (skipn i I <> [] /\ (forall a b, skipn i I <> a ++ d ++ b) /\ until_str (mk_reader I i) d = (Ok tt, (mk_reader I (length I), Some (skipn i I)))) \/
  (skipn i I <> [] /\ exists a, before_first (skipn i I) d a /\ until_str (mk_reader I i) d = (Ok tt, (mk_reader I (i + length a), Some a))).
Proof.
  intros HI. destruct (read_until_str_spec (mk_reader I i) d keep HI) as (U1 & U2 & U3). change (view_remaining (mk_reader I i)) with (skipn i I) in *. unfold until_str. cbn [rpos] in *.
  destruct (skipn i I) as [|x l] eqn:E; [left; split; [reflexivity|]; now rewrite U1|right]. destruct (find_str d (x :: l)) as [k|] eqn:EF.
  - right. split; [discriminate|]. destruct (find_str_some _ _ _ EF) as (a & b & E1 & E2). exists a.
    assert (BF : before_first (x :: l) d a).
    { split; [exists b; exact E1|]. intros a' b' E'. assert (X := find_str_least d (x :: l) k EF a' b' E'). lia. }
    split; [exact BF|]. rewrite (U3 _ ltac:(discriminate) BF). reflexivity.
  - left. split; [discriminate|]. assert (NF := proj1 (find_str_none d (x :: l)) EF). split; [exact NF|]. rewrite U2 by (discriminate || exact NF). cbn [ignore_eof keep assign_view]. unfold set_pos. cbn [rtext].
    do 3 f_equal. assert (L := f_equal (@length Z) E). rewrite skipn_length in L. lia.
Qed.

(** ** Doubled braces behind a field *)
Lemma literal_length its : Forall plain_item its -> length (literal_text its) = length its.
Proof. induction 1 as [|[] its H HF IH]; cbn; auto; contradiction. Qed.
Lemma nth_text done rest : nth_error (text_of done ++ rest) (length (text_of done)) = nth_error rest 0.
Proof. rewrite nth_error_app2 by lia. now rewrite Nat.sub_diag. Qed.
Lemma nth_text1 done x rest : nth_error (text_of done ++ x :: rest) (S (length (text_of done))) = nth_error rest 0.
Proof. rewrite nth_error_app2 by lia. replace (S (length (text_of done)) - length (text_of done))%nat with 1%nat by lia. reflexivity. Qed.

(** One iteration. *)
Definition step (c : Z) (i : item) : bool := match i with Literal x | Brace x => c =? x | _ => false end.
Lemma match_complex_step fuel done i tl inp ii k c : Forall plain_item done -> plain_item i -> nth_error inp ii = Some c ->
  let fmt := text_of (done ++ i :: tl) in
  match_complex (S fuel) fmt inp (length (text_of done)) ii k =
  if step c i then match_complex fuel fmt inp (length (text_of (done ++ [i]))) (S ii) (S k) else match_complex fuel fmt inp 0 (S ii) 0.
Proof.
  intros HD HI HC fmt. cbn [match_complex]. unfold fmt. rewrite text_of_app. change (text_of (i :: tl)) with (item_text i ++ text_of tl). rewrite nth_text. change ch_lbrace with 123. change ch_rbrace with 125.
  destruct i as [x|x|]; [| |contradiction]; cbn [plain_item item_ok] in HI; cbn [item_text app step].
  - cbn [nth_error]. rewrite HC. unfold is_brace in HI. replace (x =? 123) with false by lia. replace (x =? 125) with false by lia.
    rewrite (text_of_app done), app_length. cbn [text_of flat_map item_text app length]. rewrite Nat.add_1_r. destruct (c =? x); reflexivity.
  - change (nth_error (x :: x :: text_of tl) 0) with (Some x). cbv iota. rewrite HC, nth_text1. change (nth_error (x :: text_of tl) 0) with (Some x). cbv iota.
    rewrite (text_of_app done), app_length. change (length (text_of [Brace x])) with 2%nat. replace (length (text_of done) + 2)%nat with (S (S (length (text_of done)))) by lia.
    destruct HI as [-> | ->].
    + change (123 =? 123) with true. cbn [negb]. cbv iota. reflexivity.
    + change (125 =? 123) with false. change (125 =? 125) with true. cbv iota. reflexivity.
Qed.

Lemma attempts_app l p q : attempts l p -> attempts l q -> attempts l (p ++ q).
Proof. intros H1 H2. induction H1 as [|k x p HK HN HA IH]; [exact H2|]. rewrite <- app_assoc. now apply attempts_fail. Qed.
Lemma attempts_one l1 c l2 x : x <> c -> attempts (l1 ++ c :: l2) (l1 ++ [x]).
Proof.
  intros H. replace l1 with (firstn (length l1) (l1 ++ c :: l2)) at 2 by apply firstn_app_exact. apply attempts_fail; [rewrite app_length; cbn; lia| |constructor].
  rewrite nth_error_app2, Nat.sub_diag by lia. cbn. congruence.
Qed.
Lemma match_complex_sound tl inp : Forall open_item tl -> forall fuel done tl2 ii a, tl = done ++ tl2 -> Forall plain_item done -> (ii <= length inp)%nat -> firstn ii inp = a ++ literal_text done -> attempts (literal_text tl) a -> (length inp - ii < fuel)%nat ->
  match match_complex fuel (text_of tl) inp (length (text_of done)) ii (length done) with
  | Ok (ii', k) => exists done' tl' a b, tl = done' ++ tl' /\ Forall plain_item done' /\ inp = a ++ literal_text done' ++ b /\ attempts (literal_text tl) a /\ ii' = (length a + k)%nat /\ k = length done' /\
      (tl' = [] \/ (exists x y z l, tl' = Field x y z :: l) /\ b <> [])
  | Err e => e = invalid_data
  | _ => False
  end.
Proof.
  intros HO. induction fuel as [|fuel IH]; intros done tl2 ii a E HD HI HA HAt HF; [lia|]. destruct tl2 as [|i tl2].
  - rewrite app_nil_r in E. subst tl. cbn [match_complex]. replace (nth_error (text_of done) (length (text_of done))) with (@None Z) by (symmetry; apply nth_error_None; lia).
    exists done, [], a, (skipn ii inp). rewrite app_nil_r. split; [reflexivity|]. split; [exact HD|]. split; [rewrite app_assoc, <- HA; symmetry; apply firstn_skipn|]. split; [exact HAt|]. split; [|auto].
    assert (L := f_equal (@length Z) HA). rewrite firstn_length, app_length, literal_length in L by exact HD. lia.
  - assert (Hi : open_item i) by (rewrite E in HO; apply Forall_app in HO; destruct HO as [_ HO]; now inversion HO).
    destruct i as [c|c|index colon sp].
    1,2: destruct (nth_error inp ii) as [x|] eqn:EN;
      [|cbn [match_complex]; rewrite E, text_of_app, nth_text; cbn [text_of flat_map item_text app nth_error]; rewrite EN; reflexivity];
      assert (LI : (ii < length inp)%nat) by (apply nth_error_Some; congruence);
      assert (FN : firstn (S ii) inp = firstn ii inp ++ [x]) by (clear -EN; revert ii EN; induction inp as [|y inp IH]; intros [|ii] EN; cbn in *; try discriminate; [congruence|f_equal; auto]);
      (match type of Hi with open_item ?it => assert (PI : plain_item it) by exact Hi; assert (MS := match_complex_step fuel done it tl2 inp ii (length done) x HD PI EN) end); cbv zeta in MS; rewrite <- E in MS; rewrite MS; clear MS;
      cbn [step]; destruct (x =? c) eqn:EX;
      [|apply (IH [] tl (S ii) (firstn (S ii) inp)); [reflexivity|constructor|lia|cbn [literal_text]; now rewrite app_nil_r|rewrite FN, HA, <- app_assoc; apply attempts_app; [exact HAt|]; rewrite E, literal_app by exact HD; apply attempts_one; cbn [literal_text app]; congruence || lia|lia]];
      assert (x = c) as -> by lia.
    + replace (S (length done)) with (length (done ++ [Literal c])) by (rewrite app_length; cbn; lia).
      apply (IH (done ++ [Literal c]) tl2 (S ii) a); [rewrite <- app_assoc; exact E|apply Forall_app; auto|lia|rewrite FN, HA, literal_app, <- app_assoc by exact HD; reflexivity|exact HAt|lia].
    + replace (S (length done)) with (length (done ++ [Brace c])) by (rewrite app_length; cbn; lia).
      apply (IH (done ++ [Brace c]) tl2 (S ii) a); [rewrite <- app_assoc; exact E|apply Forall_app; auto|lia|rewrite FN, HA, literal_app, <- app_assoc by exact HD; reflexivity|exact HAt|lia].
    + destruct Hi as (c & l & EI & NC). cbn [match_complex]. rewrite E, text_of_app. change (text_of (Field index colon sp :: tl2)) with (item_text (Field index colon sp) ++ text_of tl2). rewrite EI. cbn [app].
      rewrite nth_text. change (nth_error (123 :: c :: l ++ text_of tl2) 0) with (Some 123). cbv iota. destruct (nth_error inp ii) as [x|] eqn:EN; [|reflexivity].
      change ch_lbrace with 123. change (123 =? 123) with true. cbv iota. rewrite nth_text1. change (nth_error (c :: l ++ text_of tl2) 0) with (Some c). cbv iota. replace (c =? 123) with false by lia. cbn [negb].
      exists done, (Field index colon sp :: tl2), a, (skipn ii inp). split; [reflexivity|]. split; [exact HD|]. split; [rewrite app_assoc, <- HA; symmetry; apply firstn_skipn|]. split; [rewrite <- E; exact HAt|]. split; [|split; [reflexivity|]].
      * assert (L := f_equal (@length Z) HA). rewrite firstn_length, app_length, literal_length in L by exact HD. lia.
      * right. split; [eauto|]. intros X. assert (LI : (ii < length inp)%nat) by (apply nth_error_Some; congruence). apply (f_equal (@length Z)) in X. rewrite skipn_length in X. cbn in X. lia.
Qed.

(** The items that are matched end at the end of the string or at a field. *)
Definition ends_here (tl' : list item) (b : list Z) : Prop := tl' = [] \/ (exists x y z l, tl' = Field x y z :: l) /\ b <> [].

Lemma match_complex_run tl inp tl' b : Forall open_item tl -> ends_here tl' b -> forall lits fuel done ii, tl = done ++ lits ++ tl' -> Forall plain_item done -> Forall plain_item lits ->
  skipn ii inp = literal_text lits ++ b -> (length lits < fuel)%nat -> forall k,
  match_complex fuel (text_of tl) inp (length (text_of done)) ii k = Ok ((ii + length lits)%nat, (k + length lits)%nat).
Proof.
  intros HO HE. induction lits as [|i lits IH]; intros fuel done ii E HD HL HS HF k; (destruct fuel as [|fuel]; [cbn in HF; lia|]).
  - cbn [app literal_text] in *. cbn [length]. rewrite !Nat.add_0_r. cbn [match_complex]. destruct HE as [-> |((x & y & z & l & ->) & HB)].
    + rewrite app_nil_r in E. subst tl. now replace (nth_error (text_of done) (length (text_of done))) with (@None Z) by (symmetry; apply nth_error_None; lia).
    + assert (Hi : open_item (Field x y z)) by (rewrite E in HO; apply Forall_app in HO; destruct HO as [_ HO]; now inversion HO). destruct Hi as (c & l2 & EI & NC).
      rewrite E, text_of_app. change (text_of (Field x y z :: l)) with (item_text (Field x y z) ++ text_of l). rewrite EI. cbn [app]. rewrite nth_text. change (nth_error (123 :: c :: l2 ++ text_of l) 0) with (Some 123). cbv iota.
      rewrite nth_skip, HS. destruct b as [|b0 b]; [congruence|]. change ch_lbrace with 123. change (123 =? 123) with true. cbv iota. rewrite nth_text1. change (nth_error (c :: l2 ++ text_of l) 0) with (Some c). cbv iota. replace (c =? 123) with false by lia. reflexivity.
  - inversion HL as [|? ? Hi HL']; subst. cbn [length] in *.
    assert (HC : exists c, skipn ii inp = c :: literal_text lits ++ b /\ step c i = true).
    { destruct i as [c|c|]; [exists c|exists c|contradiction]; (split; [exact HS|cbn [step]; lia]). }
    destruct HC as (c & HC & ST). assert (EN : nth_error inp ii = Some c) by (rewrite nth_skip, HC; reflexivity).
    assert (MS := match_complex_step fuel done i (lits ++ tl') inp ii k c HD Hi EN). cbv zeta in MS. cbn [app] in MS |- *. rewrite MS, ST.
    assert (E' : done ++ i :: lits ++ tl' = (done ++ [i]) ++ lits ++ tl') by now rewrite <- app_assoc.
    rewrite (IH fuel (done ++ [i]) (S ii)); [f_equal; f_equal; lia|exact E'|apply Forall_app; auto|exact HL'|apply (skip_succ _ _ _ _ HC)|lia].
Qed.

(** A failed attempt. *)
Lemma match_complex_fail i tl2 inp x b : plain_item i -> step x i = false -> forall lits fuel done ii k, Forall plain_item done -> Forall plain_item lits ->
  skipn ii inp = literal_text lits ++ x :: b -> (length lits < fuel)%nat ->
  match_complex fuel (text_of (done ++ lits ++ i :: tl2)) inp (length (text_of done)) ii k =
  match_complex (fuel - S (length lits)) (text_of (done ++ lits ++ i :: tl2)) inp 0 (ii + S (length lits)) 0.
Proof.
  intros HI HX. induction lits as [|l lits IH]; intros fuel done ii k HD HL HS HF; (destruct fuel as [|fuel]; [cbn in HF; lia|]); cbn [length] in *.
  - cbn [app literal_text] in *. assert (EN : nth_error inp ii = Some x) by (rewrite nth_skip, HS; reflexivity).
    assert (MS := match_complex_step fuel done i tl2 inp ii k x HD HI EN). cbv zeta in MS. rewrite MS, HX. f_equal; lia.
  - inversion HL as [|? ? Hl HL']; subst.
    assert (HC : exists c, skipn ii inp = c :: literal_text lits ++ x :: b /\ step c l = true).
    { destruct l as [c|c|]; [exists c|exists c|contradiction]; (split; [exact HS|cbn [step]; lia]). }
    destruct HC as (c & HC & ST). assert (EN : nth_error inp ii = Some c) by (rewrite nth_skip, HC; reflexivity).
    assert (MS := match_complex_step fuel done l (lits ++ i :: tl2) inp ii k c HD Hl EN). cbv zeta in MS. cbn [app] in MS |- *. rewrite MS, ST.
    replace (done ++ l :: lits ++ i :: tl2) with ((done ++ [l]) ++ lits ++ i :: tl2) by now rewrite <- app_assoc.
    rewrite (IH fuel (done ++ [l]) (S ii)); [f_equal; lia|apply Forall_app; auto|exact HL'|apply (skip_succ _ _ _ _ HC)|lia].
Qed.
Lemma literal_at lits k : Forall plain_item lits -> (k < length lits)%nat -> exists l1 i l2, lits = l1 ++ i :: l2 /\ length l1 = k /\ literal_text l1 = firstn k (literal_text lits) /\
  (forall x, nth_error (literal_text lits) k <> Some x -> step x i = false).
Proof.
  intros HL. revert k. induction HL as [|i lits Hi HL IH]; intros k HK; [cbn in HK; lia|]. destruct k as [|k].
  - exists [], i, lits. split; [reflexivity|]. split; [reflexivity|]. split; [reflexivity|]. intros x HX. destruct i as [c|c|]; cbn in *; try contradiction; apply Z.eqb_neq; congruence.
  - destruct (IH k ltac:(cbn in HK; lia)) as (l1 & i' & l2 & -> & HK' & HT & HX). exists (i :: l1), i', l2. split; [reflexivity|]. split; [cbn; congruence|]. destruct i as [c|c|]; [| |contradiction]; cbn [literal_text app firstn nth_error]; rewrite HT; auto.
Qed.
Lemma match_complex_complete lits tl' inp a b : Forall open_item (lits ++ tl') -> ends_here tl' b -> Forall plain_item lits ->
  inp = a ++ literal_text lits ++ b -> attempts (literal_text lits) a -> match_complex (S (length inp)) (text_of (lits ++ tl')) inp 0 0 0 = Ok ((length a + length lits)%nat, length lits).
Proof.
  intros HO HE HL HI HA.
  assert (X : forall a2, attempts (literal_text lits) a2 -> forall a1 fuel, a = a1 ++ a2 -> (length a2 + length lits < fuel)%nat -> match_complex fuel (text_of (lits ++ tl')) inp 0 (length a1) 0 = Ok ((length a + length lits)%nat, length lits)).
  { induction 1 as [|k x a2 HK HN HA2 IH]; intros a1 fuel EA HF.
    - rewrite app_nil_r in EA. subst a1. assert (R := match_complex_run (lits ++ tl') inp tl' b HO HE lits fuel [] (length a) eq_refl ltac:(constructor) HL). specialize (R ltac:(rewrite HI; apply skipn_app_exact) HF 0%nat). exact R.
    - rewrite literal_length in HK by exact HL. destruct (literal_at lits k HL HK) as (l1 & i & l2 & E & HK' & HT & HX). specialize (HX x HN). rewrite app_length, firstn_length in HF. cbn [length] in HF. rewrite literal_length in HF by exact HL.
      assert (HL2 := HL). rewrite E in HL2. apply Forall_app in HL2. destruct HL2 as (HL1 & HL2).
      assert (M := match_complex_fail i (l2 ++ tl') inp x (a2 ++ literal_text lits ++ b) (Forall_inv HL2) HX l1 fuel [] (length a1) 0 ltac:(constructor) HL1).
      specialize (M ltac:(rewrite HI, EA, HT, <- !app_assoc; apply skipn_app_exact) ltac:(lia)). change (length (text_of [])) with 0%nat in M. cbn [app] in M.
      replace (l1 ++ i :: l2 ++ tl') with (lits ++ tl') in M by (rewrite E, <- app_assoc; reflexivity). rewrite M.
      replace (length a1 + S (length l1))%nat with (length (a1 ++ firstn k (literal_text lits) ++ [x])) by (rewrite !app_length, <- HT, literal_length by exact HL1; cbn; lia).
      apply IH; [rewrite EA, <- !app_assoc; reflexivity|lia]. }
  apply (X a HA [] (S (length inp))); [reflexivity|]. rewrite HI, !app_length, literal_length by exact HL. lia.
Qed.

(** ** What is taken *)
Lemma plain_split its : Forall open_item its -> exists lits tl, its = lits ++ tl /\ Forall plain_item lits /\ (tl = [] \/ exists x y z l, tl = Field x y z :: l).
Proof.
  induction 1 as [|i its Hi HF IH]; [exists [], []; auto|]. destruct IH as (lits & tl & -> & HL & HT). destruct i as [c|c|x y z].
  - exists (Literal c :: lits), tl. split; [reflexivity|]. split; [constructor; auto|exact HT].
  - exists (Brace c :: lits), tl. split; [reflexivity|]. split; [constructor; auto|exact HT].
  - exists [], (Field x y z :: lits ++ tl). split; [reflexivity|]. split; [constructor|]. right. eauto.
Qed.
Lemma literal_split lits tl : Forall plain_item lits -> tl = [] \/ (exists x y z l, tl = Field x y z :: l) -> literal_text (lits ++ tl) = literal_text lits.
Proof. intros HL HT. rewrite literal_app by exact HL. destruct HT as [-> |(x & y & z & l & ->)]; cbn; apply app_nil_r. Qed.
Lemma field_split lits tl : Forall plain_item lits -> field_follows (lits ++ tl) = field_follows tl.
Proof. induction 1 as [|[] lits H HF IH]; cbn; auto; contradiction. Qed.
Lemma braces_literals pre tl : braces_follow (map Literal pre ++ tl) = braces_follow tl.
Proof. induction pre; cbn; auto. Qed.
Lemma braces_false pre tl : starts_item tl -> braces_follow (map Literal pre ++ tl) = match tl with Brace _ :: _ => true | _ => false end.
Proof. intros H. rewrite braces_literals. destruct tl as [|[]]; [reflexivity|contradiction|reflexivity|reflexivity]. Qed.

Theorem read_text_first s T p I i its piece rest : sc_width s = -1 -> skipn p T = text_of its -> (p <= length T)%nat -> Forall open_item its -> (i <= length I)%nat ->
  skipn i I = piece ++ rest -> takes its piece rest -> read_string s (mk_reader T p) (mk_reader I i) = (Ok tt, (mk_reader I (i + length piece), Some piece)).
Proof.
  intros HW HS HP HO HI E HT. destruct (split_literals its HO) as (pre & tl & EI & HB & HST & HO2). rewrite EI in HS. rewrite (read_string_cases s T p I i pre tl HW HS HP HB HST HO2).
  destruct its as [|it its'].
  - destruct pre; [|discriminate]. cbn in EI. subst tl. cbn in HT. subst rest. rewrite app_nil_r in E. rewrite E. do 3 f_equal. assert (L := f_equal (@length Z) E). rewrite skipn_length in L. assert (length I = i + length piece)%nat by lia. congruence.
  - unfold takes in HT. rewrite EI in HT. destruct HT as (NE & HR & HT). rewrite braces_false, literal_literals in * by exact HST.
    assert (U : literal_text tl = [] -> until_str (mk_reader I i) pre = (Ok tt, (mk_reader I (i + length piece), Some piece))).
    { intros LT. assert (BF : before_first (piece ++ rest) (pre ++ literal_text tl) piece) by (destruct tl as [|[]]; [exact HT|contradiction|discriminate|exact HT]). rewrite LT, app_nil_r in BF. rewrite <- E in BF, NE. destruct (until_cases I i pre HI) as [(X & _)|[(_ & X & _)|(_ & a & X & ->)]]; [congruence|destruct BF as ((b & BF) & _); exfalso; eapply X; eauto|].
      assert (a = piece) as ->; [|reflexivity]. destruct BF as ((b & BF1) & BF2), X as ((b' & X1) & X2). assert (length a = length piece) by (specialize (BF2 _ _ X1); specialize (X2 _ _ BF1); lia).
      rewrite X1 in BF1. assert (F := f_equal (firstn (length a)) BF1). rewrite firstn_app_exact in F. rewrite H, firstn_app_exact in F. exact F. }
    destruct tl as [|it2 tl].
    + destruct pre as [|c pre]; [discriminate|]. now apply U.
    + destruct it2 as [c|c|x y z]; [contradiction| |now apply U]. destruct HT as ((c' & l' & EQ) & NC & HFi).
      assert (pre = [] /\ c' = c) as [-> ->] by (destruct pre; cbn in EQ; [injection EQ as -> _; auto|discriminate]). cbn [map app] in *. clear U.
      destruct (plain_split (Brace c :: tl) HO2) as (lits & tl' & EL & HL & HT').
      destruct lits as [|i0 lits]; [destruct HT' as [-> |(x & y & z & l & ->)]; discriminate|]. cbn [app] in EL. injection EL as <- ->. change (Brace c :: lits ++ tl') with ((Brace c :: lits) ++ tl') in *.
      rewrite literal_split in * by assumption. destruct HR as (b & ER).
      unfold read_string_complex. change (view_remaining (mk_reader I i)) with (skipn i I). rewrite E, ER.
      rewrite (match_complex_complete (Brace c :: lits) tl' (piece ++ literal_text (Brace c :: lits) ++ b) piece b HO2); [|destruct HT' as [HT'|HT']; [now left|right]|exact HL|reflexivity|exact NC].
      * replace (length piece + length (Brace c :: lits) - length (Brace c :: lits))%nat with (length piece) by lia. rewrite firstn_app_exact. rewrite pop_pos; [reflexivity|].
        rewrite <- view_length. change (view_remaining (mk_reader I i)) with (skipn i I). rewrite E, app_length. lia.
      * split; [exact HT'|]. intros ->. apply HFi; [rewrite field_split by exact HL; destruct HT' as (x & y & z & l & ->); reflexivity|]. now rewrite ER, app_nil_r.
Qed.

Theorem read_text_at s T p I i its : sc_width s = -1 -> skipn p T = text_of its -> (p <= length T)%nat -> Forall open_item its -> (i <= length I)%nat ->
  match read_string s (mk_reader T p) (mk_reader I i) with
  | (Ok _, (r', v)) => exists piece rest, v = Some piece /\ skipn i I = piece ++ rest /\ r' = mk_reader I (i + length piece) /\ ((exists b, rest = literal_text its ++ b) -> takes its piece rest)
  | (Err e, (r', v)) => r' = mk_reader I i /\ v = None /\ forall piece rest, skipn i I = piece ++ rest -> ~ takes its piece rest
  | _ => False
  end.
Proof.
  intros HW HS HP HO HI. assert (FI : forall piece rest, skipn i I = piece ++ rest -> takes its piece rest -> fst (read_string s (mk_reader T p) (mk_reader I i)) = Ok tt).
  { intros piece rest E HT. now rewrite (read_text_first s T p I i its piece rest). }
  destruct (split_literals its HO) as (pre & tl & EI & HB & HST & HO2). assert (HS' := HS). rewrite EI in HS'. rewrite (read_string_cases s T p I i pre tl HW HS' HP HB HST HO2) in *. clear HS HS'.
  assert (U : its <> [] -> braces_follow its = false -> literal_text its = pre -> (forall piece rest, skipn i I = piece ++ rest -> takes its piece rest -> fst (until_str (mk_reader I i) pre) = Ok tt) ->
    match until_str (mk_reader I i) pre with
    | (Ok _, (r', v)) => exists piece rest, v = Some piece /\ skipn i I = piece ++ rest /\ r' = mk_reader I (i + length piece) /\ ((exists b, rest = literal_text its ++ b) -> takes its piece rest)
    | (Err e, (r', v)) => r' = mk_reader I i /\ v = None /\ forall piece rest, skipn i I = piece ++ rest -> ~ takes its piece rest
    | _ => False
    end).
  { intros NI BR LT FU. destruct (until_cases I i pre HI) as [(X & EU)|[(NE & X & EU)|(NE & a & X & EU)]]; rewrite EU in *.
    - split; [reflexivity|]. split; [reflexivity|]. intros piece rest E HT. specialize (FU piece rest E HT). discriminate.
    - exists (skipn i I), []. rewrite app_nil_r. split; [reflexivity|]. split; [reflexivity|]. split; [f_equal; rewrite skipn_length; lia|]. intros (b & EB). exfalso. symmetry in EB. apply app_eq_nil in EB. destruct EB as [EB _].
      apply (X (skipn i I) []). rewrite <- LT, EB. now rewrite !app_nil_r.
    - destruct X as ((b & X1) & X2). exists a, (pre ++ b). split; [reflexivity|]. split; [exact X1|]. split; [reflexivity|]. intros _. destruct its as [|i0 its0]; [congruence|]. unfold takes. rewrite LT, BR, <- X1. split; [exact NE|]. split; [eauto|]. split; [eauto|exact X2]. }
  destruct tl as [|it2 tl].
  - destruct pre as [|c pre].
    + exists (skipn i I), []. rewrite app_nil_r. split; [reflexivity|]. split; [reflexivity|]. split; [f_equal; rewrite skipn_length; lia|]. intros _. cbn in EI. subst its. reflexivity.
    + apply U; [subst its; discriminate|subst its; now rewrite braces_false|subst its; rewrite literal_literals; cbn; now rewrite app_nil_r|exact FI].
  - destruct it2 as [c|c|x y z]; [contradiction| |apply U; [subst its; destruct pre; discriminate|subst its; now rewrite braces_false|subst its; rewrite literal_literals; cbn; now rewrite app_nil_r|exact FI]].
    clear U. unfold read_string_complex in *. change (view_remaining (mk_reader I i)) with (skipn i I) in *.
    assert (X := match_complex_sound (Brace c :: tl) (skipn i I) HO2 (S (length (skipn i I))) [] (Brace c :: tl) 0 [] eq_refl ltac:(constructor) ltac:(lia) eq_refl ltac:(constructor) ltac:(lia)). change (length (text_of [])) with 0%nat in X. cbn [length] in X.
    destruct (match_complex (S (length (skipn i I))) (text_of (Brace c :: tl)) (skipn i I) 0 0 0) as [[ii k]|e| |]; try contradiction.
    + destruct X as (done & tl' & a & b & ET & HD & EB & HA & -> & -> & HE). replace (length a + length done - length done)%nat with (length a) by lia. assert (FA : firstn (length a) (skipn i I) = a) by (rewrite EB; apply firstn_app_exact). rewrite FA.
      exists a, (literal_text done ++ b). split; [reflexivity|]. split; [exact EB|]. split.
      * rewrite pop_pos; [reflexivity|]. rewrite <- view_length. change (view_remaining (mk_reader I i)) with (skipn i I). rewrite EB, app_length. lia.
      * intros (b' & EB'). assert (HT' : tl' = [] \/ exists x y z l, tl' = Field x y z :: l) by tauto. assert (LT : literal_text (Brace c :: tl) = literal_text done) by (rewrite ET; now apply literal_split).
        destruct pre as [|c0 pre].
        -- cbn [map app] in EI. subst its. unfold takes. change (braces_follow (Brace c :: tl)) with true. cbv iota. rewrite LT. change (literal_text (Brace c :: tl)) with (c :: literal_text tl) in LT.
           split; [rewrite <- LT; destruct a; discriminate|]. split; [eauto|]. split; [eauto|]. split; [rewrite <- LT; exact HA|]. rewrite ET, field_split by exact HD. intros HF EX.
           destruct HE as [-> |(_ & HE)]; [discriminate|]. apply HE. rewrite <- (app_nil_r (literal_text done)) in EX at 2. now apply app_inv_head in EX.
        -- exfalso. rewrite EI in EB'. cbn [map app literal_text] in EB'. rewrite <- LT in EB'. change (literal_text (Brace c :: tl)) with (c :: literal_text tl) in EB'. cbn [app] in EB'. injection EB' as EC _. apply (Forall_inv HB). rewrite <- EC. exact (Forall_inv HO2).
    + split; [reflexivity|]. split; [reflexivity|]. intros piece rest E HT. specialize (FI piece rest E HT). discriminate.
Qed.

(** With a width. *)
Theorem read_text_width s fr I i : 0 <= sc_width s ->
  read_string s fr (mk_reader I i) =
  if (Z.to_nat (sc_width s) <=? length I - i)%nat then (Ok tt, (mk_reader I (i + Z.to_nat (sc_width s)), Some (firstn (Z.to_nat (sc_width s)) (skipn i I)))) else (Err eof, (mk_reader I i, None)).
Proof.
  intros HW. unfold read_string. replace (negb (sc_width s =? -1)) with true by lia. unfold read_n_chars, cnt_remaining. cbn [rtext rpos]. destruct (_ <=? _)%nat; reflexivity.
Qed.
