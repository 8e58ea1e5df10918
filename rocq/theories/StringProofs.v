(** Proofs about Format.v: fields and format strings. *)
From Verif Require Import Base Conversion Reader Buffer Writer Bitset Specs FormatArg FloatArg Format.
From Verif Require Import Lib SpecNum SpecReader SpecEscape SpecFloat SpecFormat SpecDecimal SpecField SpecSpecs SpecString.
From Verif Require Import ReaderProofs SpecsProofs.

Lemma fty_ind' (P : fty -> Prop) :
  (forall t, P (FCore t)) -> P FMono -> (forall t, P t -> P (FOpt t)) -> P FVariant -> (forall k t, P t -> P (FRange k t)) ->
  (forall ts, Forall P ts -> P (FTuple ts)) -> (forall t, P t -> P (FDyn t)) -> P FArgs -> forall t, P t.
Proof.
  intros H1 H2 H3 H4 H5 H6 H7 H8. fix F 1. intros [t| |t| |k t|ts|t|]; [apply H1|exact H2|apply H3, F|exact H4|apply H5, F| |apply H7, F|exact H8].
  apply H6. induction ts as [|t ts IH]; constructor; [apply F|exact IH].
Qed.

(** ** Formatters that were created and read *)
Definition brackets := (list Z * list Z * list Z)%type.
Definition fresh (t : fty) (bs : brackets) : fmtr :=
  let '(o, c, s) := bs in set_separator (set_brackets (new_formatter t) o c) s.
Lemma fresh_default t : fresh t (default_brackets t) = new_formatter t.
Proof. destruct t as [| | | |[] | | |]; reflexivity. Qed.
Lemma fresh_core c bs : fresh (FCore c) bs = MCore c default_specs.
Proof. now destruct bs as [[? ?] ?]. Qed.
Lemma fresh_opt t bs : fresh (FOpt t) bs = MOpt (fresh t (default_brackets t)).
Proof. destruct bs as [[? ?] ?]. now rewrite fresh_default. Qed.
Lemma fresh_dyn t bs : fresh (FDyn t) bs = MDyn (fresh t (default_brackets t)).
Proof. destruct bs as [[? ?] ?]. now rewrite fresh_default. Qed.
Definition as_specs (n : bool) (bs : brackets) : ranges_specs :=
  let '(o, c, s) := bs in if n then mk_rs [] [] s else mk_rs o c s.
Lemma fresh_range k t bs : fresh (FRange k t) bs = MRange (as_specs false bs) (fresh t (element_brackets k t)).
Proof. destruct bs as [[? ?] ?], k; cbn [element_brackets]; rewrite ?fresh_default; reflexivity. Qed.
Lemma fresh_tuple ts bs : fresh (FTuple ts) bs = MTuple (as_specs false bs) (map (fun t => fresh t (default_brackets t)) ts).
Proof.
  destruct bs as [[o c] s]. cbn. f_equal. apply map_ext. intros t. now rewrite fresh_default.
Qed.

(** The formatter of type [t] that has read [sp]. *)
Fixpoint fmtr_for (debug : bool) (bs : brackets) (t : fty) (sp : list Z) (m : fmtr) {struct t} : Prop :=
  match t with
  | FCore c => exists s, spec_text sp s /\ specs_ok s /\ check_specs c s = Ok tt /\ (debug = true -> s = default_specs) /\
                         m = MCore c (if debug then maybe_set_debug_format (Some true) c s else s)
  | FMono => m = MMono
  | FVariant => m = MVariant
  | FArgs => m = MArgs
  | FOpt t => exists m', m = MOpt m' /\ fmtr_for false (default_brackets t) t sp m'
  | FDyn t => exists m', m = MDyn m' /\ fmtr_for false (default_brackets t) t sp m'
  | FRange k t => exists n e m', range_spec sp n e /\ m = MRange (as_specs n bs) m' /\
                                 fmtr_for (no_spec e) (element_brackets k t) t (element_spec e) m'
  | FTuple ts =>
    exists n e ms, range_spec sp n e /\ m = MTuple (as_specs n bs) ms /\
      (fix all (ts : list fty) (ms : list fmtr) : Prop :=
         match ts, ms with
         | [], [] => True
         | t :: ts, m :: ms => fmtr_for (no_spec e) (default_brackets t) t (element_spec e) m /\ all ts ms
         | _, _ => False
         end) ts ms
  end.
Definition fmtrs_for (debug : bool) (sp : list Z) : list fty -> list fmtr -> Prop :=
  Forall2 (fun t m => fmtr_for debug (default_brackets t) t sp m).
Lemma fmtr_for_tuple debug bs ts sp m : fmtr_for debug bs (FTuple ts) sp m <->
  exists n e ms, range_spec sp n e /\ m = MTuple (as_specs n bs) ms /\ fmtrs_for (no_spec e) (element_spec e) ts ms.
Proof.
  cbn [fmtr_for]. split; intros (n & e & ms & H1 & H2 & H3); exists n, e, ms; (split; [exact H1|]; split; [exact H2|]); clear H1 H2; revert ms H3.
  - induction ts as [|t ts IH]; intros [|m' ms] H; try contradiction; constructor; [apply H|apply IH, H].
  - induction ts as [|t ts IH]; intros [|m' ms] H; inversion H; subst; [exact Logic.I|]. split; [assumption|apply IH; assumption].
Qed.
Lemma field_spec_tuple ts sp : field_spec (FTuple ts) sp <->
  exists n e, range_spec sp n e /\ match e with None => True | Some e => ts <> [] /\ Forall (fun t => field_spec t e) ts end.
Proof.
  cbn [field_spec]. split; intros (n & e & H1 & H2); exists n, e; (split; [exact H1|]); clear H1; destruct e as [e|]; auto; destruct H2 as [H1 H2]; (split; [exact H1|]); clear H1.
  - induction ts as [|t ts IH]; constructor; [apply H2|apply IH, H2].
  - induction ts as [|t ts IH]; [exact Logic.I|]. inversion H2; subst. split; [assumption|apply IH; assumption].
Qed.

(** ** The closing brace ends a specification *)
Lemma spec_text_end sp s : spec_text sp s -> exists x, sp = x ++ [125] /\ ~ In 125 x.
Proof.
  intros (fa & sg & al & ze & wd & pr & ty & fill & align & sign & alt & zero & w & p & type & -> & H1 & H2 & H3 & H4 & H5 & H6 & H7 & _).
  exists (fa ++ sg ++ al ++ ze ++ wd ++ pr ++ ty). split; [now rewrite <- !app_assoc|].
  assert (D : forall l, digits_text l -> ~ In 125 l).
  { intros l [_ HF] HI. rewrite Forall_forall in HF. apply HF in HI. lia. }
  rewrite !in_app_iff. intros [H|[H|[H|[H|[H|[H|H]]]]]].
  - destruct H1 as [(-> & _)|[(c & -> & HA & _)|(c & -> & HA & HF)]]; cbn in H; try unfold align_char in HA; lia.
  - destruct H2 as [(-> & _)|(-> & HI)]; cbn in *; lia.
  - unfold flag_part in H3. destruct alt; subst; cbn in H; lia.
  - unfold flag_part in H4. destruct zero; subst; cbn in H; lia.
  - destruct H5 as [(-> & _)|((HD & _) & _)]; [contradiction|]. now apply (D wd).
  - destruct H6 as [(-> & _)|(n & -> & (HD & _))]; [contradiction|]. destruct H as [H|H]; [lia|]. now apply (D n).
  - destruct H7 as [(-> & _)|(-> & HL)]; [contradiction|]. unfold is_letter in HL. cbn in H. lia.
Qed.
Lemma range_spec_end sp n e : range_spec sp n e -> (forall x, e = Some x -> exists y, x = y ++ [125] /\ ~ In 125 y) -> exists x, sp = x ++ [125] /\ ~ In 125 x.
Proof.
  intros -> H. destruct e as [e|].
  - destruct (H e eq_refl) as (y & -> & HY). exists ((if n then [110] else []) ++ 58 :: y). split; [now rewrite <- app_assoc|].
    rewrite in_app_iff. intros [X|[X|X]]; [destruct n; cbn in X; lia|lia|contradiction].
  - exists (if n then [110] else []). split; [reflexivity|]. destruct n; cbn; lia.
Qed.
Lemma field_spec_end t : forall sp, field_spec t sp -> exists x, sp = x ++ [125] /\ ~ In 125 x.
Proof.
  induction t as [t| |t IH| |k t IH|ts IH|t IH|] using fty_ind'; intros sp H; cbn [field_spec] in H;
    try (subst sp; exists []; split; [reflexivity|tauto]); try (now apply IH).
  - destruct H as (s & H & _). now apply spec_text_end in H.
  - destruct H as (n & e & H & HE). apply (range_spec_end _ _ _ H). intros x ->. now apply IH.
  - apply field_spec_tuple in H. destruct H as (n & e & H & HE). apply (range_spec_end _ _ _ H). intros x ->. destruct HE as [NE HE].
    destruct ts as [|t ts]; [congruence|]. inversion IH; inversion HE; subst. auto.
Qed.
Lemma first_brace_unique (x y a b : list Z) : ~ In 125 x -> ~ In 125 y -> x ++ 125 :: a = y ++ 125 :: b -> x = y /\ a = b.
Proof.
  revert y. induction x as [|c x IH]; intros [|d y] HX HY E; cbn in E.
  - injection E as ->. auto.
  - injection E as <- _. exfalso. apply HY. now left.
  - injection E as -> _. exfalso. apply HX. now left.
  - injection E as <- E. destruct (IH y) as [-> ->]; auto; cbn in *; tauto.
Qed.

(** ** Fields *)

(** The type has no tuples, or the string ends with the field at [n]. *)
Definition tuple_at (t : fty) (T : list Z) (n : nat) : Prop :=
  tuple_free t \/ exists x, skipn n T = x ++ [125] /\ ~ In 125 x.

Definition parses (t : fty) (T : list Z) (n : nat) (sp : list Z) : Prop :=
  forall d bs, (d = Some true -> sp = [125]) ->
  exists m, parse_with d (fresh t bs) (mk_reader T n) = (Ok m, mk_reader T (n + length sp)) /\
            fmtr_for (match d with Some true => true | _ => false end) bs t sp m.

Lemma match_rbrace_ok T n r' : match_rbrace (mk_reader T n) = (Ok tt, r') <-> (exists l, skipn n T = 125 :: l) /\ r' = mk_reader T (n + 1).
Proof.
  unfold match_rbrace, read_if_match_char. split.
  - intros H. sinv H. injection H as <-. destruct (peek (mk_reader T n)) as [c| | |] eqn:EP; try discriminate. destruct (c =? ch_rbrace) eqn:EC; [|discriminate].
    injection E as _ <-. apply peek_inv in EP. destruct EP as (l & EP). change ch_rbrace with 125 in EC. assert (c = 125) as -> by lia. split; [eauto|reflexivity].
  - intros [(l & H) ->]. rewrite (peek_at _ _ _ _ H). reflexivity.
Qed.

Lemma pop_at T n c l : skipn n T = c :: l -> pop (mk_reader T n) 1 = mk_reader T (S n).
Proof.
  intros H. apply skip_bound in H. unfold pop, cnt_remaining, set_pos. cbn [rtext rpos]. replace (1 <=? length T - n)%nat with true by lia. f_equal. lia.
Qed.

Lemma core_field_ok t T n r' : Forall is_byte T -> validate_core t (mk_reader T n) = (Ok tt, r') ->
  exists sp rest, skipn n T = sp ++ rest /\ field_spec (FCore t) sp /\ r' = mk_reader T (n + length sp) /\ parses (FCore t) T n sp.
Proof.
  intros HB H. unfold validate_core in H. sinv H. injection H as HC <-.
  destruct (validate_sound _ _ _ _ HB E) as (sp & rest & ES & HS & ->). exists sp, rest.
  assert (HBS : Forall is_byte sp) by (assert (X := forall_skipn _ n _ HB); rewrite ES in X; apply Forall_app in X; tauto).
  assert (HO := spec_text_ok _ _ HBS HS).
  split; [exact ES|]. split; [exists x; split; [exact HS|]; apply check_specs_iff; [apply HO|exact HC]|]. split; [reflexivity|].
  intros d bs HD. rewrite fresh_core. cbn [parse_with].
  destruct d as [[|]|].
  - specialize (HD eq_refl). subst sp. cbn [app] in ES. destruct (read_at _ _ _ _ ES) as [RA _].
    assert (x = default_specs) as -> by (unfold validate_format_specs in E; rewrite RA in E; cbn [sbind] in E; change (125 =? ch_rbrace) with true in E; cbv iota in E; injection E as <- _; reflexivity).
    exists (MCore t (maybe_set_debug_format (Some true) t default_specs)). split.
    + unfold parse_format_specs. rewrite RA. cbn. now rewrite Nat.add_1_r.
    + cbn [fmtr_for]. exists default_specs. auto 6.
  - exists (MCore t x). replace (maybe_set_debug_format (Some false) t default_specs) with default_specs by (now destruct t). rewrite (parse_same _ _ _ _ E). cbn [sbind].
    split; [reflexivity|]. cbn [fmtr_for]. exists x. split; [exact HS|]. split; [exact HO|]. split; [exact HC|]. split; [discriminate|reflexivity].
  - exists (MCore t x). cbn [maybe_set_debug_format]. rewrite (parse_same _ _ _ _ E). cbn [sbind].
    split; [reflexivity|]. cbn [fmtr_for]. exists x. split; [exact HS|]. split; [exact HO|]. split; [exact HC|]. split; [discriminate|reflexivity].
Qed.

(** The part of a range specification in front of the elements. *)
Definition range_head {A} (r : reader) (k1 k2 : reader -> outcome A * reader) : outcome A * reader :=
  sdo (c, r) <- read_char r ;;
  sdo (c, r) <- (if c =? 110 then read_char r else (Ok c, r)) ;;
  if c =? ch_rbrace then k1 r else if c =? ch_colon then k2 r else (Err invalid_format, r).
Lemma range_head_ok {A} T n (k1 k2 : reader -> outcome A * reader) a r' : range_head (mk_reader T n) k1 k2 = (Ok a, r') ->
  exists b e l, skipn n T = (if b : bool then [110] else []) ++ (if e : bool then 125 else 58) :: l /\
    (if e then k1 else k2) (mk_reader T (n + (if b then 2 else 1))) = (Ok a, r').
Proof.
  unfold range_head. intros H. sinv H. sinv H. apply read_inv in E. destruct E as (-> & l & ES). change ch_rbrace with 125 in H. change ch_colon with 58 in H.
  destruct (x =? 110) eqn:EX.
  - apply read_inv in E0. destruct E0 as (-> & l2 & ES2). destruct (read_at _ _ _ _ ES) as [_ X]. rewrite X in ES2. subst l. assert (x = 110) as -> by lia.
    destruct (x0 =? 125) eqn:E1; [|destruct (x0 =? 58) eqn:E2; [|discriminate]].
    + exists true, true, l2. assert (x0 = 125) as -> by lia. split; [exact ES|]. now rewrite Nat.add_comm.
    + exists true, false, l2. assert (x0 = 58) as -> by lia. split; [exact ES|]. now rewrite Nat.add_comm.
  - injection E0 as -> <-. destruct (x0 =? 125) eqn:E1; [|destruct (x0 =? 58) eqn:E2; [|discriminate]].
    + exists false, true, l. assert (x0 = 125) as -> by lia. split; [exact ES|]. now rewrite Nat.add_comm.
    + exists false, false, l. assert (x0 = 58) as -> by lia. split; [exact ES|]. now rewrite Nat.add_comm.
Qed.
Lemma range_head_intro {A} T n (k1 k2 : reader -> outcome A * reader) (b e : bool) l :
  skipn n T = (if b then [110] else []) ++ (if e then 125 else 58) :: l ->
  range_head (mk_reader T n) k1 k2 = (if e then k1 else k2) (mk_reader T (n + (if b then 2 else 1))).
Proof.
  intros H. unfold range_head. destruct b; cbn [app] in H.
  - destruct (read_at _ _ _ _ H) as [-> H2]. cbn [sbind]. change (110 =? 110) with true. cbv iota.
    destruct (read_at _ _ _ _ H2) as [-> H3]. cbn [sbind]. rewrite (Nat.add_comm n 2). destruct e; reflexivity.
  - destruct (read_at _ _ _ _ H) as [-> H2]. cbn [sbind]. rewrite (Nat.add_comm n 1). destruct e; reflexivity.
Qed.

(** The same when parsing: the closing brace is left for the elements. *)
Definition range_peek {A} (rs : ranges_specs) (r : reader) (k : ranges_specs -> Z -> reader -> outcome A * reader) : outcome A * reader :=
  sdo (c, r) <- assume (peek_s r) ;;
  let rs := if c =? 110 then mk_rs [] [] (rs_sep rs) else rs in
  let r := if c =? 110 then pop r 1 else r in
  sdo (c, r) <- (if c =? 110 then assume (peek_s r) else (Ok c, r)) ;; k rs c r.
Lemma range_peek_ok {A} bs T n (k : ranges_specs -> Z -> reader -> outcome A * reader) (b e : bool) l :
  skipn n T = (if b then [110] else []) ++ (if e then 125 else 58) :: l ->
  range_peek (as_specs false bs) (mk_reader T n) k = k (as_specs b bs) (if e then 125 else 58) (mk_reader T (n + (if b then 1 else 0))).
Proof.
  intros H. unfold range_peek, peek_s. destruct b; cbn [app] in H.
  - rewrite (peek_at _ _ _ _ H). cbn [assume sbind]. change (110 =? 110) with true. cbv iota zeta. rewrite (pop_at _ _ _ _ H).
    destruct (read_at _ _ _ _ H) as [_ H2]. rewrite (peek_at _ _ _ _ H2). cbn [assume sbind]. rewrite Nat.add_1_r. now destruct bs as [[? ?] ?].
  - rewrite (peek_at _ _ _ _ H). cbn [assume sbind]. rewrite Nat.add_0_r. destruct e; reflexivity.
Qed.

Lemma validate_range k t r : validate_fty (FRange k t) r = range_head r (fun r => (Ok tt, r)) (validate_fty t).
Proof. reflexivity. Qed.
Lemma validate_tuple ts r : validate_fty (FTuple ts) r = range_head r (fun r => (Ok tt, r)) (validate_for_each validate_fty ts).
Proof. reflexivity. Qed.
Lemma parse_range d rs m r : parse_with d (MRange rs m) r =
  range_peek rs r (fun rs c r => sdo (m, r) <- (if c =? 125 then parse_with (Some true) m r else parse_with None m (pop r 1)) ;; (Ok (MRange rs m), r)).
Proof. reflexivity. Qed.
Definition parse_tuple_body (ms : list fmtr) (rs : ranges_specs) (c : Z) (r : reader) : outcome fmtr * reader :=
  let set_debug := c =? 125 in
  let r := if set_debug then r else pop r 1 in
  match ms with
  | [] => if set_debug then (Ok (MTuple rs []), pop r 1) else (Err invalid_format, r)
  | _ =>
    match parse_elements (parse_with (Some set_debug)) ms r set_debug 0 with
    | Ok (ms, reader_pos) => (Ok (MTuple rs ms), pop r reader_pos)
    | Err e => (Err e, r)
    | Undef => (Undef, r)
    | Abort => (Abort, r)
    end
  end.
Lemma parse_tuple d rs ms r : parse_with d (MTuple rs ms) r = range_peek rs r (parse_tuple_body ms).
Proof. reflexivity. Qed.

Lemma brace_ok t : forall T n l, Forall is_byte T -> skipn n T = 125 :: l -> tuple_at t T n ->
  validate_fty t (mk_reader T n) = (Ok tt, mk_reader T (n + 1)).
Proof.
  induction t as [t| |t IH| |k t IH|ts IH|t IH|] using fty_ind'; intros T n l HB H HT;
    try (cbn [validate_fty]; apply match_rbrace_ok; eauto); try (cbn [validate_fty]; eapply IH; eauto).
  - cbn [validate_fty]. unfold validate_core, validate_format_specs. destruct (read_at _ _ _ _ H) as [-> _]. cbn. rewrite Nat.add_1_r. now destruct t as [| |[? []]| | |].
  - rewrite validate_range. rewrite (range_head_intro T n _ _ false true l H). reflexivity.
  - rewrite validate_tuple. rewrite (range_head_intro T n _ _ false true l H). reflexivity.
Qed.

Lemma tuple_at_end T n x m : skipn n T = x ++ [125] -> ~ In 125 x -> (n <= m < n + length x + 1)%nat -> exists y, skipn m T = y ++ [125] /\ ~ In 125 y.
Proof.
  intros H HN HM. exists (skipn (m - n) x). replace m with (n + (m - n))%nat at 1 by lia. rewrite <- skipn_skipn_nat, H, skipn_app.
  replace (m - n - length x)%nat with O by lia. split; [reflexivity|]. intros HI. apply HN. rewrite <- (firstn_skipn (m - n) x). apply in_or_app. now right.
Qed.
Lemma tuple_at_move t t' T n m : (tuple_free t -> tuple_free t') -> tuple_at t T n ->
  (n <= m)%nat -> (exists a l, skipn n T = a ++ l /\ length a = (m - n)%nat /\ ~ In 125 a) -> (m < length T)%nat -> tuple_at t' T m.
Proof.
  intros HT [H|(x & HX & HN)] HM (a & l & HA & HL & HI) HB; [left; auto|right]. apply (tuple_at_end T n x m HX HN).
  assert (L := f_equal (@length Z) HX). rewrite skipn_length, app_length in L. cbn in L. lia.
Qed.

(** Elements of a tuple: all are validated at the same place. *)
Lemma elements_ok ts T n p q : Forall is_byte T ->
  Forall (fun t => forall r', validate_fty t (mk_reader T n) = (Ok tt, r') ->
     exists sp rest, skipn n T = sp ++ rest /\ field_spec t sp /\ r' = mk_reader T (n + length sp) /\ parses t T n sp) ts ->
  validate_elements validate_fty ts (mk_reader T n) p = Ok q ->
  Forall (fun t => exists sp rest, skipn n T = sp ++ rest /\ field_spec t sp /\ parses t T n sp) ts.
Proof.
  intros HB HF. revert p. induction HF as [|t ts Ht HF IH]; intros p H; [constructor|]. cbn [validate_elements] in H.
  destruct (validate_fty t (mk_reader T n)) as [[[]| | |] r'] eqn:E; try discriminate. cbn [bind] in H.
  destruct (Ht _ eq_refl) as (sp & rest & H1 & H2 & H3 & H4). constructor; [exists sp, rest; auto|].
  destruct (p =? 0)%nat; [eapply IH; eauto|]. destruct (p =? pos r')%nat; [eapply IH; eauto|discriminate].
Qed.

Lemma parse_elements_ok debug T p sp ts : Forall (fun t => parses t T p sp) ts -> (debug = true -> sp = [125]) -> ts <> [] ->
  forall q0, exists ms, parse_elements (parse_with (Some debug)) (map (fun t => fresh t (default_brackets t)) ts) (mk_reader T p) debug q0 = Ok (ms, (p + length sp)%nat) /\
    fmtrs_for debug sp ts ms.
Proof.
  intros HF HD HN. induction HF as [|t ts Ht HF IH]; [congruence|]. intros q0. cbn [map parse_elements].
  destruct (Ht (Some debug) (default_brackets t)) as (m & -> & HM); [intros [= ->]; auto|]. cbn [bind pos rpos].
  destruct ts as [|t2 ts].
  - cbn. exists [m]. split; [reflexivity|]. constructor; [|constructor]. now destruct debug.
  - destruct (IH ltac:(discriminate) (p + length sp)%nat) as (ms & -> & HMS). cbn [bind fst snd]. exists (m :: ms). split; [reflexivity|].
    constructor; [now destruct debug|exact HMS].
Qed.

Lemma pop_end T p q : q = length T -> (p <= length T)%nat -> pop (mk_reader T p) q = mk_reader T (length T).
Proof.
  intros -> H. unfold pop, cnt_remaining, set_pos. cbn [rtext rpos]. destruct (length T <=? length T - p)%nat eqn:E; [|reflexivity]. f_equal. lia.
Qed.

Lemma tuple_parses ts T n (b : bool) e l : ts <> [] ->
  skipn n T = (if b then [110] else []) ++ (match e with None => [] | Some _ => [58] end) ++ l ->
  (match e with None => l = [125] | Some e => l = e end) ->
  Forall (fun t => parses t T (n + length (if b then [110%Z] else []) + match e with None => 0 | Some _ => 1 end) (element_spec e)) ts ->
  parses (FTuple ts) T n ((if b then [110] else []) ++ match e with None => [125] | Some e => 58 :: e end).
Proof.
  intros HN HS HL HF d bs _. rewrite fresh_tuple, parse_tuple.
  assert (LT : (n + length (((if b then [110] else []) ++ match e with None => [125] | Some e => 58 :: e end)%Z) = length T)%nat).
  { assert (X := f_equal (@length Z) HS). rewrite skipn_length, !app_length in X. rewrite app_length. destruct b, e; subst; cbn [length] in *; lia. }
  rewrite LT.
  destruct e as [e|]; subst l.
  - rewrite (range_peek_ok bs T n _ b false e) by exact HS. unfold parse_tuple_body. change (58 =? 125) with false. cbv iota zeta.
    assert (HS2 : skipn (n + if b then 1 else 0) T = 58 :: e).
    { destruct b; [|rewrite Nat.add_0_r; exact HS]. rewrite <- skipn_skipn_nat, HS. reflexivity. }
    rewrite (pop_at _ _ _ _ HS2). destruct ts as [|t ts]; [congruence|]. set (ts' := t :: ts) in *.
    change (map (fun t0 : fty => fresh t0 (default_brackets t0)) ts') with (fresh t (default_brackets t) :: map (fun t0 : fty => fresh t0 (default_brackets t0)) ts) at 1. cbv iota.
    replace (S (n + if b then 1 else 0))%nat with (n + length (if b then [110%Z] else []) + 1)%nat by (destruct b; cbn; lia).
    destruct (parse_elements_ok false T _ _ ts' HF ltac:(discriminate) HN 0) as (ms & -> & HM). cbn [element_spec] in *.
    exists (MTuple (as_specs b bs) ms). rewrite pop_end; [|rewrite <- LT, app_length; cbn; lia|rewrite <- LT, app_length; cbn; lia].
    split; [reflexivity|]. apply fmtr_for_tuple. exists b, (Some e), ms. split; [reflexivity|]. split; [reflexivity|exact HM].
  - rewrite (range_peek_ok bs T n _ b true []) by exact HS. unfold parse_tuple_body. change (125 =? 125) with true. cbv iota zeta.
    destruct ts as [|t ts]; [congruence|]. set (ts' := t :: ts) in *.
    change (map (fun t0 : fty => fresh t0 (default_brackets t0)) ts') with (fresh t (default_brackets t) :: map (fun t0 : fty => fresh t0 (default_brackets t0)) ts) at 1. cbv iota.
    replace (n + if b then 1 else 0)%nat with (n + length (if b then [110%Z] else []) + 0)%nat by (destruct b; cbn; lia).
    destruct (parse_elements_ok true T _ _ ts' HF ltac:(reflexivity) HN 0) as (ms & -> & HM). cbn [element_spec] in *.
    exists (MTuple (as_specs b bs) ms). rewrite pop_end; [|rewrite <- LT, app_length; cbn; lia|rewrite <- LT, app_length; cbn; lia].
    split; [reflexivity|]. apply fmtr_for_tuple. exists b, None, ms. split; [reflexivity|]. split; [reflexivity|exact HM].
Qed.

(** What validation accepts for a field is what the specification says, and the
    parser reads it. *)
Theorem validate_fty_sound : forall t T n r', Forall is_byte T -> tuple_at t T n ->
  validate_fty t (mk_reader T n) = (Ok tt, r') ->
  exists sp rest, skipn n T = sp ++ rest /\ field_spec t sp /\ r' = mk_reader T (n + length sp) /\ parses t T n sp.
Proof.
  assert (RB : forall t T n r', match_rbrace (mk_reader T n) = (Ok tt, r') -> (fresh t ([], [], []) = MMono \/ fresh t ([], [], []) = MVariant \/ fresh t ([], [], []) = MArgs) ->
    (forall bs, fresh t bs = fresh t ([], [], [])) -> (forall d sp bs, fmtr_for d bs t sp (fresh t ([], [], []))) -> field_spec t [125] ->
    exists sp rest, skipn n T = sp ++ rest /\ field_spec t sp /\ r' = mk_reader T (n + length sp) /\ parses t T n sp).
  { intros t T n r' H HM HFr HFo HSp. assert (HC := H). apply match_rbrace_ok in H. destruct H as ((l & H) & ->). exists [125], l.
    split; [exact H|]. split; [exact HSp|]. split; [reflexivity|]. intros d bs _. rewrite HFr. exists (fresh t ([], [], [])). split; [|apply HFo].
    destruct HM as [-> |[-> | ->]]; cbn [parse_with]; rewrite HC; reflexivity. }
  intros t. induction t as [t| |t IH| |k t IH|ts IH|t IH|] using fty_ind'; intros T n r' HB HT H.
  - now apply core_field_ok.
  - apply (RB FMono T n r' H); auto; try (intros [[? ?] ?]; reflexivity); reflexivity.
  - cbn [validate_fty] in H. destruct (IH T n r' HB HT H) as (sp & rest & H1 & H2 & H3 & H4). exists sp, rest. split; [exact H1|]. split; [exact H2|]. split; [exact H3|].
    intros d bs _. rewrite fresh_opt. cbn [parse_with]. destruct (H4 None (default_brackets t)) as (m & -> & HM); [discriminate|]. cbn [sbind].
    exists (MOpt m). split; [reflexivity|]. exists m. auto.
  - apply (RB FVariant T n r' H); auto; try (intros [[? ?] ?]; reflexivity); reflexivity.
  - rewrite validate_range in H. apply range_head_ok in H. destruct H as (b & e & l & HS & H). destruct e.
    + injection H as <-. exists ((if b then [110] else []) ++ [125]), l. split; [rewrite <- app_assoc; exact HS|]. split; [exists b, None; split; [reflexivity|exact Logic.I]|].
      split; [destruct b; reflexivity|]. intros d bs _. rewrite fresh_range, parse_range.
      rewrite (range_peek_ok bs T n _ b true l HS). change (125 =? 125) with true. cbv iota.
      assert (HS2 : skipn (n + if b then 1 else 0) T = 125 :: l).
      { destruct b; [|rewrite Nat.add_0_r; exact HS]. rewrite <- skipn_skipn_nat, HS. reflexivity. }
      assert (HT2 : tuple_at t T (n + if b then 1 else 0)).
      { apply (tuple_at_move (FRange k t) t T n); [intros X; exact X|exact HT|lia| |apply skip_bound in HS2; exact HS2].
        exists (if b then [110] else []), (125 :: l). split; [exact HS|]. split; [destruct b; cbn; lia|destruct b; cbn; lia]. }
      destruct (IH T _ _ HB HT2 (brace_ok t T _ l HB HS2 HT2)) as (sp & rest & H1 & H2 & H3 & H4).
      assert (sp = [125]) as ->. { injection H3 as H3. destruct (field_spec_end t sp H2) as (x & -> & HX). rewrite app_length in H3. cbn in H3. destruct x; [reflexivity|cbn in H3; lia]. }
      destruct (H4 (Some true) (element_brackets k t)) as (m & EM & HM); [reflexivity|]. cbn [length] in EM. rewrite EM. cbn [sbind].
      exists (MRange (as_specs b bs) m). split; [|exists b, None, m; auto using eq_refl; split; [reflexivity|]; split; [reflexivity|exact HM]].
      rewrite app_length. cbn [length]. f_equal. f_equal. destruct b; cbn; lia.
    + assert (HS2 : skipn (n + if b then 1 else 0) T = 58 :: l).
      { destruct b; [|rewrite Nat.add_0_r; exact HS]. rewrite <- skipn_skipn_nat, HS. reflexivity. }
      assert (HS3 : skipn (n + if b then 2 else 1) T = l).
      { replace (n + if b then 2 else 1)%nat with (S (n + if b then 1 else 0)) by (destruct b; lia). now destruct (read_at _ _ _ _ HS2). }
      assert (LB : ((n + if b then 2 else 1) < length T)%nat).
      { destruct (Nat.lt_ge_cases (n + if b then 2 else 1) (length T)) as [X|X]; [exact X|exfalso]. clear IH.
        assert (l = []) as -> by (rewrite <- HS3; apply skipn_all2; lia). assert (EP : peek (mk_reader T (n + if b then 2 else 1)) = Err eof \/ peek (mk_reader T (n + if b then 2 else 1)) = Undef).
        { unfold peek. destruct (at_eof _); [now left|]. destruct (nth_error _ _) eqn:E; [|auto]. exfalso. cbn in E. assert (nth_error T (n + if b then 2 else 1) <> None) by congruence. apply nth_error_Some in H0. lia. }
        revert H. generalize dependent r'. clear -EP. induction t as [t| |t IH| |k t IH|ts IH|t IH|] using fty_ind'; intros r' H; cbn [validate_fty] in H; try (now apply (IH r'));
          unfold validate_core, validate_format_specs, match_rbrace, read_if_match_char, read_char in H; destruct EP as [EP|EP]; rewrite EP in H; discriminate. }
      assert (HT2 : tuple_at t T (n + if b then 2 else 1)).
      { apply (tuple_at_move (FRange k t) t T n); [intros X; exact X|exact HT|lia| |exact LB].
        exists ((if b then [110] else []) ++ [58]), l. split; [rewrite <- app_assoc; exact HS|]. split; [destruct b; cbn; lia|destruct b; cbn; lia]. }
      destruct (IH T _ _ HB HT2 H) as (sp & rest & H1 & H2 & H3 & H4). rewrite HS3 in H1. rewrite H1 in HS, HS2. clear HS3 H1 l.
      exists ((if b then [110] else []) ++ 58 :: sp), rest. split; [rewrite <- app_assoc; exact HS|]. split; [exists b, (Some sp); split; [reflexivity|exact H2]|].
      split; [rewrite H3; f_equal; rewrite app_length; destruct b; cbn [length]; lia|]. intros d bs _. rewrite fresh_range, parse_range.
      rewrite (range_peek_ok bs T n _ b false (sp ++ rest) HS). change (58 =? 125) with false. cbv iota. rewrite (pop_at _ _ _ _ HS2).
      replace (S (n + if b then 1 else 0)) with (n + if b then 2 else 1)%nat by (destruct b; lia).
      destruct (H4 None (element_brackets k t)) as (m & -> & HM); [discriminate|]. cbn [sbind].
      exists (MRange (as_specs b bs) m). split; [|exists b, (Some sp), m; split; [reflexivity|]; split; [reflexivity|exact HM]].
      f_equal. f_equal. rewrite app_length. destruct b; cbn [length]; lia.
  - destruct HT as [[]|(x & HX & HNX)]. rewrite validate_tuple in H. apply range_head_ok in H. destruct H as (b & e & l & HS & H). destruct e.
    + injection H as <-.
      assert (l = []) as ->.
      { rewrite HX in HS. destruct (first_brace_unique x (if b then [110] else []) [] l HNX) as [_ E]; [destruct b; cbn; lia|exact HS|]. now symmetry. }
      exists ((if b then [110] else []) ++ [125]), []. split; [rewrite app_nil_r; exact HS|]. split; [apply field_spec_tuple; exists b, None; split; [reflexivity|exact Logic.I]|].
      split; [destruct b; reflexivity|].
      assert (HS2 : skipn (n + if b then 1 else 0) T = [125]).
      { destruct b; [|rewrite Nat.add_0_r; exact HS]. rewrite <- skipn_skipn_nat, HS. reflexivity. }
      destruct ts as [|t0 ts0].
      * intros d bs _. rewrite fresh_tuple, parse_tuple. rewrite (range_peek_ok bs T n _ b true [] HS). unfold parse_tuple_body. cbn [map].
        change (125 =? 125) with true. cbv iota zeta. rewrite (pop_at _ _ _ _ HS2). exists (MTuple (as_specs b bs) []). split.
        -- f_equal. f_equal. rewrite app_length. destruct b; cbn [length]; lia.
        -- apply fmtr_for_tuple. exists b, None, []. split; [reflexivity|]. split; [reflexivity|constructor].
      * apply (tuple_parses (t0 :: ts0) T n b None [125]); [discriminate|exact HS|reflexivity|]. rewrite Nat.add_0_r. cbn [element_spec].
        replace (n + length (if b then [110%Z] else []))%nat with (n + if b then 1 else 0)%nat by (destruct b; reflexivity).
        apply Forall_forall. intros t HI. rewrite Forall_forall in IH. specialize (IH t HI).
        assert (HT2 : tuple_at t T (n + if b then 1 else 0)) by (right; exists []; split; [exact HS2|tauto]).
        destruct (IH T _ _ HB HT2 (brace_ok t T _ [] HB HS2 HT2)) as (sp & rest & H1 & H2 & H3 & H4).
        assert (sp = [125]) as ->. { injection H3 as H3. destruct (field_spec_end t sp H2) as (y & -> & HY). rewrite app_length in H3. cbn in H3. destruct y; [reflexivity|cbn in H3; lia]. }
        exact H4.
    + unfold validate_for_each in H. destruct ts as [|t0 ts0]; [discriminate|]. set (ts := t0 :: ts0) in *.
      destruct (validate_elements validate_fty ts (mk_reader T (n + if b then 2 else 1)) 0) as [q| | |] eqn:EV; try discriminate.
      assert (x = (if b then [110] else []) ++ 58 :: removelast l /\ l = removelast l ++ [125] /\ ~ In 125 (removelast l)) as (EX & EL & HNL).
      { assert (HL : l <> []).
        { intros ->. rewrite HX in HS. assert (X := f_equal (fun l => last l 0) HS). cbn beta in X. rewrite last_last in X. destruct b; cbn in X; lia. }
        rewrite (app_removelast_last 0 HL) in HS at 1. rewrite HX in HS.
        replace ((if b then [110] else []) ++ 58 :: removelast l ++ [last l 0]) with (((if b then [110] else []) ++ 58 :: removelast l) ++ [last l 0]) in HS by now rewrite <- app_assoc.
        apply app_inj_tail in HS. destruct HS as [-> HS]. split; [reflexivity|]. split; [rewrite HS; apply app_removelast_last, HL|].
        intros HI. apply HNX. apply in_or_app. right. right. exact HI. }
      assert (HS3 : skipn (n + if b then 2 else 1) T = l).
      { replace l with (skipn (if b then 2 else 1) (skipn n T)); [now rewrite skipn_skipn_nat|]. rewrite HS. now destruct b. }
      assert (HE : Forall (fun t => parses t T (n + if b then 2 else 1) l) ts /\ Forall (fun t => field_spec t l) ts).
      { apply elements_ok in EV; [|exact HB|].
        - rewrite Forall_forall in EV. split; apply Forall_forall; intros t HI; destruct (EV t HI) as (sp & rest & H1 & H2 & H4);
            destruct (field_spec_end t sp H2) as (y & -> & HY); rewrite HS3, EL, <- app_assoc in H1; cbn [app] in H1;
            destruct (first_brace_unique _ _ _ _ HNL HY H1) as [<- <-]; rewrite <- EL in *; assumption.
        - apply Forall_forall. intros t HI r2 HV. rewrite Forall_forall in IH. apply (IH t HI T _ r2 HB); [|exact HV].
          right. exists (removelast l). rewrite HS3. auto. }
      assert (LT : length T = (n + length ((if b then [110%Z] else []) ++ 58%Z :: l))%nat).
      { assert (X := f_equal (@length Z) HS). rewrite skipn_length in X. rewrite <- X. destruct (Nat.le_gt_cases n (length T)) as [Y|Y]; [lia|]. rewrite skipn_all2 in HS by lia. destruct b; discriminate. }
      assert (HQ : q = length T).
      { destruct HE as [HE HE2]. clear H. assert (X : forall p, validate_elements validate_fty ts (mk_reader T (n + if b then 2 else 1)) p = Ok q -> ts <> [] -> (p = 0%nat \/ p = length T) -> q = length T).
        { assert (LQ : Forall (fun t => forall r2, validate_fty t (mk_reader T (n + if b then 2 else 1)) = (Ok tt, r2) -> pos r2 = length T) ts).
          { apply Forall_forall. intros t HI r2 HV. rewrite Forall_forall in IH.
            destruct (IH t HI T (n + if b then 2 else 1)%nat r2 HB) as (sp & rest & H1 & H2 & H3 & H4); [right; exists (removelast l); rewrite HS3; auto|exact HV|].
            subst r2. cbn [pos rpos]. destruct (field_spec_end t sp H2) as (y & -> & HY). rewrite HS3, EL, <- app_assoc in H1. cbn [app] in H1.
            destruct (first_brace_unique _ _ _ _ HNL HY H1) as [<- <-]. rewrite <- EL. rewrite LT, app_length. destruct b; cbn [length]; lia. }
          clear IH HE HE2 EV. clearbody ts. induction LQ as [|t ts Ht LQ IH]; [congruence|]. intros p H _ HP. cbn [validate_elements] in H.
          destruct (validate_fty t _) as [[[]| | |] r2] eqn:E; try discriminate. cbn [bind] in H. specialize (Ht _ eq_refl).
          destruct ts as [|t2 ts].
          - cbn [validate_elements] in H. destruct (p =? 0)%nat eqn:E0; [injection H as <-; exact Ht|]. destruct (p =? pos r2)%nat eqn:E1; [|discriminate]. injection H as <-. lia.
          - destruct (p =? 0)%nat eqn:E0; [apply (IH _ H); [discriminate|auto]|]. destruct (p =? pos r2)%nat eqn:E1; [|discriminate]. apply (IH _ H); [discriminate|]. right. lia. }
        apply (X 0%nat EV); [discriminate|auto]. }
      destruct (q =? 0)%nat eqn:EQ0; [rewrite LT, app_length in HQ; destruct b; cbn [length] in HQ; lia|].
      rewrite pop_end in H; [|exact HQ|rewrite LT, app_length; destruct b; cbn [length]; lia]. injection H as <-.
      exists ((if b then [110] else []) ++ 58 :: l), []. split; [rewrite app_nil_r; exact HS|].
      split; [apply field_spec_tuple; exists b, (Some l); split; [reflexivity|split; [discriminate|apply HE]]|]. split; [now rewrite LT|].
      apply (tuple_parses ts T n b (Some l) l); [discriminate|exact HS|reflexivity|]. cbn [element_spec].
      replace (n + length (if b then [110%Z] else []) + 1)%nat with (n + if b then 2 else 1)%nat by (destruct b; cbn; lia). apply HE.
  - cbn [validate_fty] in H. destruct (IH T n r' HB HT H) as (sp & rest & H1 & H2 & H3 & H4). exists sp, rest. split; [exact H1|]. split; [exact H2|]. split; [exact H3|].
    intros d bs _. rewrite fresh_dyn. cbn [parse_with]. destruct (H4 None (default_brackets t)) as (m & -> & HM); [discriminate|]. cbn [sbind].
    exists (MDyn m). split; [reflexivity|]. exists m. auto.
  - apply (RB FArgs T n r' H); auto; try (intros [[? ?] ?]; reflexivity); reflexivity.
Qed.

(** ** Fields that are valid are accepted *)
Lemma small_sub a t b : small_numbers (a ++ t ++ b) -> small_numbers t.
Proof. intros H x d y -> HD. apply (H (a ++ x) d (y ++ b)); [now rewrite <- !app_assoc|exact HD]. Qed.

Theorem validate_fty_complete t : forall T n sp rest, Forall is_byte T -> tuple_at t T n ->
  skipn n T = sp ++ rest -> field_spec t sp -> small_numbers sp ->
  validate_fty t (mk_reader T n) = (Ok tt, mk_reader T (n + length sp)).
Proof.
  induction t as [t| |t IH| |k t IH|ts IH|t IH|] using fty_ind'; intros T n sp rest HB HT HS HF HN;
    try (cbn [field_spec] in HF; subst sp; cbn [validate_fty]; apply match_rbrace_ok; split; [exists rest; exact HS|reflexivity]);
    try (cbn [field_spec validate_fty] in *; eapply IH; eauto).
  - destruct HF as (s & H1 & H2). cbn [validate_fty]. unfold validate_core.
    rewrite (validate_complete T n sp rest s HB HS H1 HN). cbn [sbind]. f_equal. apply check_specs_iff; [|exact H2].
    assert (HBS : Forall is_byte sp) by (assert (X := forall_skipn _ n _ HB); rewrite HS in X; apply Forall_app in X; tauto).
    apply (spec_text_ok _ _ HBS H1).
  - destruct HF as (b & e & -> & HE). rewrite validate_range. destruct e as [e|].
    + rewrite (range_head_intro T n _ _ b false (e ++ rest)) by (rewrite HS, <- app_assoc; reflexivity).
      assert (HS3 : skipn (n + if b then 2 else 1) T = e ++ rest).
      { replace (e ++ rest) with (skipn (if b then 2 else 1) (skipn n T)); [now rewrite skipn_skipn_nat|]. rewrite HS. now destruct b. }
      destruct (field_spec_end _ _ HE) as (y & EY & _).
      rewrite (IH T _ e rest HB); [f_equal; f_equal; rewrite app_length; destruct b; cbn [length]; lia| |exact HS3|exact HE|].
      * apply (tuple_at_move (FRange k t) t T n); [intros X; exact X|exact HT|lia| |].
        -- exists ((if b then [110] else []) ++ [58]), (e ++ rest). split; [rewrite HS, <- !app_assoc; reflexivity|]. split; destruct b; cbn; lia.
        -- subst e. rewrite <- app_assoc in HS3. destruct y as [|z y]; cbn [app] in HS3; now apply skip_bound in HS3.
      * apply (small_sub ((if b then [110] else []) ++ [58]) e []). now rewrite app_nil_r, <- app_assoc.
    + rewrite (range_head_intro T n _ _ b true rest) by (rewrite HS, <- app_assoc; reflexivity).
      f_equal. f_equal. rewrite app_length. destruct b; reflexivity.
  - destruct HT as [[]|(x & HX & HNX)]. assert (HF' := HF). apply field_spec_tuple in HF. destruct HF as (b & e & -> & HE). rewrite validate_tuple. destruct e as [e|].
    + assert (rest = []) as ->.
      { destruct (field_spec_end _ _ HF') as (y & EY & HY). rewrite HX, EY, <- app_assoc in HS. cbn [app] in HS. destruct (first_brace_unique _ _ _ _ HNX HY HS) as [_ E]. now symmetry. }
      rewrite app_nil_r in HS. destruct HE as [HNE HE].
      rewrite (range_head_intro T n _ _ b false e) by exact HS.
      assert (HS3 : skipn (n + if b then 2 else 1) T = e).
      { replace e with (skipn (if b then 2 else 1) (skipn n T)); [now rewrite skipn_skipn_nat|]. rewrite HS. now destruct b. }
      assert (LT : length T = (n + length ((if b then [110%Z] else []) ++ 58%Z :: e))%nat).
      { assert (X := f_equal (@length Z) HS). rewrite skipn_length in X. rewrite <- X. destruct (Nat.le_gt_cases n (length T)) as [Y|Y]; [lia|]. rewrite skipn_all2 in HS by lia. destruct b; discriminate. }
      assert (HV : Forall (fun t => validate_fty t (mk_reader T (n + if b then 2 else 1)) = (Ok tt, mk_reader T (length T))) ts).
      { apply Forall_forall. intros t HI. rewrite Forall_forall in IH, HE. rewrite (IH t HI T _ e [] HB); [| |now rewrite app_nil_r|now apply HE|].
        - f_equal. f_equal. rewrite LT, app_length. destruct b; cbn [length]; lia.
        - right. destruct (field_spec_end t e) as (y & -> & HY); [now apply HE|]. exists y. auto.
        - apply (small_sub ((if b then [110] else []) ++ [58]) e []). now rewrite app_nil_r, <- app_assoc. }
      assert (X : forall p, (p = 0%nat \/ p = length T) -> validate_elements validate_fty ts (mk_reader T (n + if b then 2 else 1)) p = Ok (match ts with [] => p | _ => length T end)).
      { clear -HV. induction HV as [|t ts Ht HV IH]; intros p HP; [reflexivity|]. cbn [validate_elements]. rewrite Ht. cbn [bind pos rpos].
        destruct (p =? 0)%nat eqn:E0; [|replace (p =? length T)%nat with true by lia]; rewrite IH by auto; destruct ts; reflexivity || (f_equal; lia). }
      unfold validate_for_each. destruct ts as [|t0 ts0]; [congruence|]. rewrite X by auto.
      replace (length T =? 0)%nat with false by (rewrite LT, app_length; cbn [length]; lia).
      rewrite pop_end; [rewrite LT; reflexivity|reflexivity|rewrite LT, app_length; destruct b; cbn [length]; lia].
    + rewrite (range_head_intro T n _ _ b true rest) by (rewrite HS, <- app_assoc; reflexivity).
      f_equal. f_equal. rewrite app_length. destruct b; reflexivity.
Qed.

(** ** Argument numbers *)
Lemma parse_index T n ds rest : Forall is_byte T -> skipn n T = ds ++ rest -> digits_text ds -> (forall x t, rest = x :: t -> ~ (48 <= x <= 57)) ->
  parse_int iso u8 10 (mk_reader T n) = if denotes 10 ds <=? 255 then (Ok (denotes 10 ds), mk_reader T (n + length ds)) else (Err out_of_range, mk_reader T n).
Proof.
  intros HB HS HD HR. assert (HD0 := denotes_nonneg_digits ds HD).
  assert (HB' : Forall is_byte (view_remaining (mk_reader T n))) by (unfold view_remaining; now apply forall_skipn).
  destruct HD as (HNE & HF) eqn:EHD. clear EHD. destruct ds as [|c ds]; [congruence|]. assert (Hc : 48 <= c <= 57) by now inversion HF.
  destruct (parse_int_char iso u8 10 (mk_reader T n)) as [P _]; try assumption; try lia.
  { unfold is_ity. cbn. tauto. }
  { unfold rwf. cbn. apply skip_bound in HS. lia. }
  assert (V : view_remaining (mk_reader T n) = (c :: ds) ++ rest) by exact HS.
  rewrite V in P. unfold literal_value, read_int_spec in P. cbn [app] in P. rewrite split_sign_digit in P by assumption.
  change (c :: ds ++ rest) with ((c :: ds) ++ rest) in P. rewrite digits_run in P by assumption. cbn [app] in P.
  change (imin u8) with 0 in P. change (imax u8) with 255 in P. rewrite P by (right; split; [cbn; lia|intros [_ X]; discriminate]).
  replace (0 <=? denotes 10 (c :: ds)) with true by lia. cbn [negb andb]. rewrite andb_true_r, Nat.sub_diag. cbn [rpos].
  destruct (denotes 10 (c :: ds) <=? 255); cbn [fst snd Nat.add]; unfold set_pos; cbn [rtext]; [reflexivity|]. now rewrite Nat.add_0_r.
Qed.

(** The number a field is for, and the state of the parser behind it. *)
Definition picks (use : option bool) (inc : nat) (index : list Z) (k : Z) (use' : option bool) (inc' : nat) : Prop :=
  (index = [] /\ use <> Some true /\ k = Z.of_nat inc /\ use' = Some false /\ inc' = S inc) \/
  (digits_text index /\ use <> Some false /\ k = denotes 10 index /\ use' = Some true /\ inc' = inc).
Definition colon_text (colon : bool) : list Z := if colon then [58] else [].

Lemma index_cases T n c l : Forall is_byte T -> skipn n T = c :: l ->
  exists ds rest, skipn n T = ds ++ rest /\ (forall x t, rest = x :: t -> ~ (48 <= x <= 57)) /\
    ((ds = [] /\ isdigit c = false) \/ (digits_text ds /\ isdigit c = true)).
Proof.
  intros HB H. assert (HC := head_byte _ _ _ _ HB H). rewrite isdigit_byte by exact HC. destruct ((48 <=? c) && (c <=? 57)) eqn:E.
  - destruct (split_digits c l) as (ds & rest & ES & HD & HR); [lia|]. exists ds, rest. rewrite H. auto.
  - exists [], (c :: l). rewrite H. split; [reflexivity|]. split; [|auto]. intros x t [= -> ->]. lia.
Qed.

Lemma check_field_inv T n use inc k use' inc' r' : Forall is_byte T -> (inc <= 254)%nat ->
  check_field (mk_reader T n) use (Z.of_nat inc) = (Ok (k, use', inc'), r') ->
  exists index colon l i, skipn n T = index ++ colon_text colon ++ (if colon then l else 125 :: l) /\
    picks use inc index k use' i /\ inc' = Z.of_nat i /\ 0 <= k <= 255 /\ r' = mk_reader T (n + length index + length (colon_text colon)).
Proof.
  intros HB HI H. unfold check_field, peek_s in H. sinv H. injection E as EP <-. apply peek_inv in EP. destruct EP as (l0 & HS).
  sinv H. destruct x0 as [[k0 u0] i0]. destruct (index_cases T n x l0 HB HS) as (ds & rest & ES & HR & HC).
  assert (Q : exists i, picks use inc ds k0 u0 i /\ i0 = Z.of_nat i /\ 0 <= k0 <= 255 /\ r = mk_reader T (n + length ds)).
  { destruct HC as [[-> HC]|[HD HC]]; rewrite HC in E.
    - assert (X : use <> Some true) by (intros ->; discriminate). exists (S inc).
      assert (E' : (Ok (Z.of_nat inc, Some false, wrap u8 (Z.of_nat inc + 1)), mk_reader T n) = (Ok (k0, u0, i0), r)) by (destruct use as [[]|]; [congruence|exact E|exact E]).
      injection E' as <- <- <- <-. split; [left; auto|]. split; [unfold wrap; cbn; rewrite Z.mod_small by lia; lia|]. split; [lia|]. cbn. now rewrite Nat.add_0_r.
    - assert (X : use <> Some false) by (intros ->; discriminate). exists inc. rewrite (parse_index T n ds rest HB ES HD HR) in E.
      assert (E' : (sdo (n0, r) <- (if denotes 10 ds <=? 255 then (Ok (denotes 10 ds), mk_reader T (n + length ds)) else (Err out_of_range, mk_reader T n)) ;; (Ok (n0, Some true, Z.of_nat inc), r)) = (Ok (k0, u0, i0), r)).
      { destruct use as [[]|]; [exact E|congruence|exact E]. }
      clear E. destruct (denotes 10 ds <=? 255) eqn:EL; [|discriminate]. cbn [sbind] in E'. injection E' as <- <- <- <-.
      split; [right; auto 6|]. split; [reflexivity|]. split; [|reflexivity]. assert (Y := denotes_nonneg_digits ds HD). lia. }
  destruct Q as (i & HP & -> & HK & ->). sinv H. injection E0 as EP <-. apply peek_inv in EP. destruct EP as (l & HL).
  assert (HL' := HL). rewrite (skip_part _ _ _ _ ES) in HL'. subst rest.
  change ch_rbrace with 125 in H. change ch_colon with 58 in H. destruct (x0 =? 125) eqn:E1; [|destruct (x0 =? 58) eqn:E2; [|discriminate]].
  - injection H as <- <- <- <-. exists ds, false, l, i. assert (x0 = 125) as -> by lia. split; [exact ES|]. split; [exact HP|]. split; [reflexivity|]. split; [exact HK|].
    cbn [colon_text length]. now rewrite Nat.add_0_r.
  - injection H as <- <- <- <-. exists ds, true, l, i. assert (x0 = 58) as -> by lia. split; [exact ES|]. split; [exact HP|]. split; [reflexivity|]. split; [exact HK|].
    rewrite (pop_at _ _ _ _ HL). cbn [colon_text length]. now rewrite Nat.add_1_r.
Qed.

Lemma field_head T n index colon l : Forall is_byte T -> skipn n T = index ++ colon_text colon ++ (if colon : bool then l else 125 :: l) -> (index = [] \/ digits_text index) ->
  exists c l0, skipn n T = c :: l0 /\ (isdigit c = true <-> digits_text index) /\
    exists c2 l2, skipn (n + length index) T = c2 :: l2 /\ c2 = (if colon then 58 else 125) /\ ~ (48 <= c2 <= 57).
Proof.
  intros HB HS HI. assert (X : exists c2 l2, skipn (n + length index) T = c2 :: l2 /\ c2 = (if colon then 58 else 125) /\ ~ (48 <= c2 <= 57)).
  { rewrite (skip_part _ _ _ _ HS). destruct colon; cbn; [exists 58, l|exists 125, l]; repeat split; lia. }
  destruct HI as [-> |HD].
  - cbn [length] in X. rewrite Nat.add_0_r in X. destruct X as (c2 & l2 & H1 & H2 & H3). exists c2, l2. split; [exact H1|]. split.
    + rewrite isdigit_byte by (apply (head_byte _ _ _ _ HB H1)). split; [lia|intros [Y _]; congruence].
    + exists c2, l2. cbn [length]. rewrite Nat.add_0_r. auto.
  - assert (HD' := HD). destruct HD as [HN HF]. destruct index as [|c index]; [congruence|]. assert (Hc : 48 <= c <= 57) by now inversion HF.
    exists c, (index ++ colon_text colon ++ (if colon then l else 125 :: l)). split; [exact HS|]. split; [|exact X].
    rewrite isdigit_byte by (unfold is_byte; lia). split; [auto|lia].
Qed.

Lemma check_field_fwd T n use inc k use' inc' index colon l : Forall is_byte T -> (inc <= 254)%nat ->
  skipn n T = index ++ colon_text colon ++ (if colon : bool then l else 125 :: l) ->
  picks use inc index k use' inc' -> k <= 255 ->
  check_field (mk_reader T n) use (Z.of_nat inc) = (Ok (k, use', Z.of_nat inc'), mk_reader T (n + length index + length (colon_text colon))).
Proof.
  intros HB HI HS HP HK. destruct (field_head T n index colon l HB HS) as (c & l0 & H1 & H2 & c2 & l2 & H3 & H4 & H5); [destruct HP; tauto|].
  unfold check_field, peek_s. rewrite (peek_at _ _ _ _ H1). cbn [sbind].
  match goal with |- sbind ?m _ = _ => assert (X : m = (Ok (k, use', Z.of_nat inc'), mk_reader T (n + length index))) end.
  { destruct HP as [(-> & HU & -> & -> & ->)|(HD & HU & -> & -> & ->)].
    - destruct (isdigit c); [destruct H2 as [H2 _]; specialize (H2 eq_refl); destruct H2; congruence|]. cbn [length]. rewrite Nat.add_0_r.
      replace (wrap u8 (Z.of_nat inc + 1)) with (Z.of_nat (S inc)) by (unfold wrap; cbn; rewrite Z.mod_small by lia; lia).
      destruct use as [[]|]; congruence.
    - replace (isdigit c) with true by (symmetry; now apply H2).
      rewrite (parse_index T n index (c2 :: l2)); [|exact HB| |exact HD|intros ? ? [= <- _]; exact H5].
      + replace (denotes 10 index <=? 255) with true by lia. cbn [sbind]. destruct use as [[]|]; congruence.
      + rewrite HS at 1. f_equal. rewrite (skip_part _ _ _ _ HS) in H3. exact H3. }
  rewrite X. cbn [sbind]. rewrite (peek_at _ _ _ _ H3). cbn [sbind]. subst c2. destruct colon; cbn [colon_text length].
  - change (58 =? ch_rbrace) with false. change (58 =? ch_colon) with true. cbv iota. rewrite (pop_at _ _ _ _ H3). now rewrite Nat.add_1_r.
  - change (125 =? ch_rbrace) with true. cbv iota. now rewrite Nat.add_0_r.
Qed.

Lemma parse_field_fwd T n use inc k use' inc' index colon l : Forall is_byte T -> (inc <= 254)%nat ->
  skipn n T = index ++ colon_text colon ++ (if colon : bool then l else 125 :: l) ->
  picks use inc index k use' inc' -> k <= 255 ->
  parse_field (mk_reader T n) (Z.of_nat inc) = (Ok (k, Z.of_nat inc'), mk_reader T (n + length index + length (colon_text colon))).
Proof.
  intros HB HI HS HP HK. destruct (field_head T n index colon l HB HS) as (c & l0 & H1 & H2 & c2 & l2 & H3 & H4 & H5); [destruct HP; tauto|].
  unfold parse_field, peek_s. rewrite (peek_at _ _ _ _ H1). cbn [assume sbind].
  match goal with |- sbind ?m _ = _ => assert (X : m = (Ok (k, Z.of_nat inc'), mk_reader T (n + length index))) end.
  { destruct HP as [(-> & HU & -> & -> & ->)|(HD & HU & -> & -> & ->)].
    - destruct (isdigit c); [destruct H2 as [H2 _]; specialize (H2 eq_refl); destruct H2; congruence|]. cbn [length]. rewrite Nat.add_0_r.
      replace (wrap u8 (Z.of_nat inc + 1)) with (Z.of_nat (S inc)) by (unfold wrap; cbn; rewrite Z.mod_small by lia; lia). reflexivity.
    - replace (isdigit c) with true by (symmetry; now apply H2).
      rewrite (parse_index T n index (c2 :: l2)); [|exact HB| |exact HD|intros ? ? [= <- _]; exact H5].
      + replace (denotes 10 index <=? 255) with true by lia. reflexivity.
      + rewrite HS at 1. f_equal. rewrite (skip_part _ _ _ _ HS) in H3. exact H3. }
  rewrite X. cbn [sbind]. rewrite (peek_at _ _ _ _ H3). cbn [assume sbind]. subst c2. destruct colon; cbn [colon_text length].
  - change (58 =? ch_rbrace) with false. cbv iota. rewrite (pop_at _ _ _ _ H3). now rewrite Nat.add_1_r.
  - change (125 =? ch_rbrace) with true. cbv iota. now rewrite Nat.add_0_r.
Qed.
