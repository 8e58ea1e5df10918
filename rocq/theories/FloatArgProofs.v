(** Proofs about FloatArg.v: the text assembled from digits and exponent. *)
From Verif Require Import Base Conversion Buffer Writer Specs FormatArg Dragon FloatArg Lib SpecNum SpecFormat.
From Verif Require Import ConversionProofs BufferProofs Emits WriterProofs FormatArgProofs.

(** ** Filling an area from its start *)
Definition filled (cells d : list Z) : list Z * nat := (splice cells 0 d, length d).

Lemma filled_app cells d1 d2 : (length d1 + length d2 <= length cells)%nat ->
  splice (splice cells 0 d1) (length d1) d2 = splice cells 0 (d1 ++ d2).
Proof. intros H. apply (splice_app cells 0 d1 d2). lia. Qed.

Lemma put1_filled cells d c : (length d + 1 <= length cells)%nat -> put1 (filled cells d) c = Some (filled cells (d ++ [c])).
Proof.
  intros H. unfold put1, filled. rewrite store_ok by (rewrite splice_length; lia). cbn [obind].
  rewrite filled_app by (cbn [length]; lia). rewrite app_length. cbn [length]. repeat f_equal. lia.
Qed.

Lemma fill_n_filled cells d n c : (length d + Z.to_nat n <= length cells)%nat -> 0 <= n ->
  fill_n (filled cells d) n c = Some (filled cells (d ++ repeat c (Z.to_nat n))).
Proof.
  intros H Hn. unfold fill_n, filled. replace (n <? 0) with false by lia.
  rewrite store_list_ok by (rewrite ?splice_length, repeat_length; lia). cbn [obind].
  rewrite filled_app by (rewrite repeat_length; lia). rewrite app_length, repeat_length. reflexivity.
Qed.

Lemma copy_n_filled src off n cells d : 0 <= off -> 0 <= n -> off + n <= Z.of_nat (length src) ->
  (length d + Z.to_nat n <= length cells)%nat ->
  copy_n src off n (filled cells d) = Some (filled cells (d ++ firstn (Z.to_nat n) (skipn (Z.to_nat off) src))).
Proof.
  intros H1 H2 H3 H. unfold copy_n, filled.
  replace (_ || _) with false by lia.
  assert (L : length (firstn (Z.to_nat n) (skipn (Z.to_nat off) src)) = Z.to_nat n) by (rewrite firstn_length, skipn_length; lia).
  rewrite store_list_ok by (rewrite ?splice_length, L; lia). cbn [obind].
  rewrite filled_app by (rewrite L; lia). rewrite app_length, L. reflexivity.
Qed.

Lemma filled_0 cells : (cells, O) = filled cells [].
Proof. unfold filled. now rewrite splice_nil. Qed.

(** ** The text *)
Definition exp_text (x : Z) : list Z :=
  (if x <? 0 then [ch_minus] else [ch_plus]) ++
  (if Z.abs x <? 10 then [48] else []) ++ numeral 10 false (Z.abs x).

Definition significant (general : bool) (ds : list Z) : list Z :=
  if general && (1 <? length ds)%nat then firstn (length ds - leading_zeros (rev ds)) ds else ds.

Definition fp_is_general (fp : fp_format_specs) : bool := match fp_fmt fp with fp_general => true | _ => false end.
Definition fp_is_fixed (fp : fp_format_specs) : bool := match fp_fmt fp with fp_fixed => true | _ => false end.

(** Scientific notation is used. *)
Definition fp_scientific (fp : fp_format_specs) (x : Z) : bool :=
  match fp_fmt fp with
  | fp_exp => true
  | fp_general => (x <? -4) || ((if 0 <? fp_precision fp then fp_precision fp else 16) <=? x)
  | _ => false
  end.

Definition zeros (n : Z) : list Z := repeat 48 (Z.to_nat n).
Lemma zeros_clip n : zeros (if n <? 0 then 0 else n) = zeros n.
Proof. unfold zeros. f_equal. destruct (n <? 0) eqn:E; lia. Qed.
Lemma clip_id n : 0 <= n -> (if n <? 0 then 0 else n) = n.
Proof. intros H. destruct (n <? 0) eqn:E; lia. Qed.
Lemma zeros_neg n m : n = m -> zeros n = zeros m.
Proof. now intros ->. Qed.
Definition zlen (l : list Z) : Z := Z.of_nat (length l).

Definition exp_body (fp : fp_format_specs) (sig : list Z) (x : Z) : list Z :=
  firstn 1 sig ++
  (if fp_showpoint fp || (1 <? length sig)%nat then [46] ++ skipn 1 sig else []) ++
  (if fp_showpoint fp then zeros (fp_precision fp - zlen sig) else []) ++
  [if fp_upper fp then 69 else 101] ++ exp_text x.

Definition fixed_body (fp : fp_format_specs) (alt : bool) (sig : list Z) (x : Z) : list Z :=
  let keep := alt && fp_is_general fp in
  if x <? 0 then
    [48; 46] ++ zeros (- x - 1) ++ sig ++ (if keep then zeros (fp_precision fp - zlen sig) else [])
  else if zlen sig <=? x + 1 then
    sig ++ zeros (x + 1 - zlen sig) ++
    (if fp_showpoint fp then
       [46] ++ (if keep then zeros (fp_precision fp - (x + 1))
                else if x + 1 =? zlen sig then zeros (fp_precision fp) else [])
     else [])
  else
    firstn (Z.to_nat (x + 1)) sig ++ [46] ++ skipn (Z.to_nat (x + 1)) sig ++
    (if fp_is_fixed fp && (zlen sig - (x + 1) <? fp_precision fp)
     then zeros (fp_precision fp - (zlen sig - (x + 1)))
     else if keep then zeros (fp_precision fp - zlen sig) else []).

Definition fp_body (fp : fp_format_specs) (alt : bool) (r : fp_result) : list Z :=
  let sig := significant (fp_is_general fp) (fst r) in
  let x := snd r - 1 in
  if fp_scientific fp x then exp_body fp sig x else fixed_body fp alt sig x.

Lemma write_exponent_filled cells d x : -1000 < x < 1000 ->
  length cells = (length d + length (exp_text x))%nat ->
  write_exponent (filled cells d) x = Some (d ++ exp_text x).
Proof.
  intros Hx HC. unfold write_exponent.
  assert (N : forall n, 0 <= n < 1000 -> length (numeral 10 false n) = (if (n <? 10)%Z then 1 else if (n <? 100)%Z then 2 else 3)%nat).
  { intros n Hn. apply numeral_length_bounds; [lia|lia|destruct (n <? 10)%Z; [lia|destruct (n <? 100)%Z; lia]|].
    destruct (n <? 10) eqn:E1; [change (Z.of_nat 1) with 1; change (10 ^ 1) with 10; lia|].
    destruct (n <? 100) eqn:E2; [change (Z.of_nat 2) with 2; change (Z.of_nat (2 - 1)) with 1; change (10 ^ 2) with 100; change (10 ^ 1) with 10; lia|].
    change (Z.of_nat 3) with 3; change (Z.of_nat (3 - 1)) with 2; change (10 ^ 3) with 1000; change (10 ^ 2) with 100; lia. }
  specialize (N (Z.abs x) ltac:(lia)).
  assert (EA : (if x <? 0 then - x else x) = Z.abs x) by (destruct (x <? 0) eqn:?; lia).
  unfold exp_text in *. replace (if x <? 0 then [ch_minus] else [ch_plus]) with [if x <? 0 then ch_minus else ch_plus] in * by (destruct (x <? 0); reflexivity).
  set (sg := if x <? 0 then ch_minus else ch_plus) in *. clearbody sg.
  rewrite !app_length in HC. cbn [length] in HC.
  rewrite put1_filled by lia. cbn [obind]. cbv zeta. rewrite EA. unfold filled.
  assert (WD : forall cells' (next : nat), (length (numeral 10 false (Z.abs x)) <= next <= length cells')%nat ->
     write_decimal digit_fuel (Z.abs x) cells' next = Some (splice cells' (next - length (numeral 10 false (Z.abs x))) (numeral 10 false (Z.abs x)),
        (next - length (numeral 10 false (Z.abs x)))%nat)).
  { intros cells' next Hl. apply write_decimal_ok; [|unfold digit_fuel; lia|exact Hl].
    assert (1000 < 2 ^ Z.of_nat digit_fuel) by (vm_compute; reflexivity). lia. }
  replace (100 <=? Z.abs x) with (negb (Z.abs x <? 100)) by lia.
  destruct (Z.abs x <? 10) eqn:E1.
  - replace (Z.abs x <? 100) with true by lia. cbn [negb].
    change (splice cells 0 (d ++ [sg]), length (d ++ [sg]))
      with (filled cells (d ++ [sg])).
    cbn [length] in HC. rewrite put1_filled by (rewrite app_length; cbn [length]; lia). cbn [obind filled].
    rewrite WD.
    + cbn [obind]. f_equal. rewrite N.
      replace (length ((d ++ [sg]) ++ [48%Z]) + 1 - 1)%nat with (length ((d ++ [sg]) ++ [48%Z])) by lia.
      rewrite filled_app by (rewrite !app_length, N; cbn [length]; lia).
      rewrite splice_full by (rewrite !app_length, N; cbn [length]; lia). now rewrite <- !app_assoc.
    + rewrite splice_length by (rewrite !app_length; cbn [length]; lia). rewrite N, !app_length. cbn [length]. lia.
  - cbn [length] in HC. destruct (Z.abs x <? 100) eqn:E2; cbn [negb].
    + rewrite WD.
      * cbn [obind]. f_equal. rewrite N.
        replace (length (d ++ [sg]) + 2 - 2)%nat with (length (d ++ [sg])) by lia.
        rewrite filled_app by (rewrite !app_length, N; cbn [length]; lia).
        rewrite splice_full by (rewrite !app_length, N; cbn [length]; lia). now rewrite <- !app_assoc.
      * rewrite splice_length by (rewrite !app_length; cbn [length]; lia). rewrite N, !app_length. cbn [length]. lia.
    + rewrite WD.
      * cbn [obind]. f_equal. rewrite N.
        replace (length (d ++ [sg]) + 3 - 3)%nat with (length (d ++ [sg])) by lia.
        rewrite filled_app by (rewrite !app_length, N; cbn [length]; lia).
        rewrite splice_full by (rewrite !app_length, N; cbn [length]; lia). now rewrite <- !app_assoc.
      * rewrite splice_length by (rewrite !app_length; cbn [length]; lia). rewrite N, !app_length. cbn [length]. lia.
Qed.

Lemma leading_zeros_le d : (leading_zeros d <= length d)%nat.
Proof.
  induction d as [|c d IH]; [cbn; lia|].
  change ((if (c =? 48)%Z then S (leading_zeros d) else O) <= S (length d))%nat. destruct (c =? 48); lia.
Qed.

Lemma significant_prefix general ds : significant general ds = firstn (length (significant general ds)) ds.
Proof.
  unfold significant. destruct (general && _); [|now rewrite firstn_all].
  rewrite firstn_length. f_equal. lia.
Qed.

Lemma significant_size general ds :
  (if general && (1 <? zlen ds) then zlen ds - Z.of_nat (leading_zeros (rev ds)) else zlen ds) = zlen (significant general ds).
Proof.
  unfold significant, zlen. replace (1 <? Z.of_nat (length ds)) with (1 <? length ds)%nat by lia.
  destruct (general && _); [|reflexivity]. assert (H := leading_zeros_le (rev ds)). rewrite rev_length in H.
  rewrite firstn_length. lia.
Qed.

Lemma copy_sig general ds n cells d : let sig := significant general ds in
  n = zlen sig -> (length d + length sig <= length cells)%nat ->
  copy_n ds 0 n (filled cells d) = Some (filled cells (d ++ sig)).
Proof.
  intros sig -> H. assert (P := significant_prefix general ds). fold sig in P.
  assert (L : (length sig <= length ds)%nat) by (rewrite P, firstn_length; lia).
  unfold zlen. rewrite copy_n_filled by lia. rewrite Nat2Z.id. change (Z.to_nat 0) with O. cbn [skipn]. now rewrite <- P.
Qed.

Lemma significand_filled general ds i cells d : let sig := significant general ds in
  0 <= i <= zlen sig -> (length d + length sig + 1 <= length cells)%nat ->
  write_significand (filled cells d) ds (zlen sig) i ch_dot =
  Some (filled cells (d ++ firstn (Z.to_nat i) sig ++ [46] ++ skipn (Z.to_nat i) sig)).
Proof.
  intros sig Hi H. assert (P := significant_prefix general ds). fold sig in P.
  assert (L : (length sig <= length ds)%nat) by (rewrite P, firstn_length; lia).
  unfold zlen in *. unfold write_significand. rewrite copy_n_filled by lia. cbn [obind].
  change (ch_dot =? 0) with false. cbv iota. change (Z.to_nat 0) with O. cbn [skipn].
  assert (F1 : firstn (Z.to_nat i) ds = firstn (Z.to_nat i) sig) by (rewrite P, firstn_firstn; f_equal; lia).
  assert (F2 : firstn (Z.to_nat (Z.of_nat (length sig) - i)) (skipn (Z.to_nat i) ds) = skipn (Z.to_nat i) sig).
  { rewrite P at 2. rewrite skipn_firstn_comm. f_equal. lia. }
  rewrite F1. rewrite put1_filled by (rewrite app_length, firstn_length; lia). cbn [obind].
  rewrite copy_n_filled by (rewrite ?app_length, ?firstn_length; cbn [length]; lia).
  rewrite F2. now rewrite <- !app_assoc.
Qed.

Section E.
  Context {K : Type} (vt : vtable K) (R : list Z -> bst K -> Prop) (cap amax room : option nat).
  Context (HL : lawful vt R cap amax room).
  Notation emits := (emits R cap amax room).
  Let HK : chunky vt R cap room := lawful_chunky _ _ _ _ _ HL.

  Lemma float_padded_emits s neg body wr tw nd : 0 <= sp_width s < 2 ^ 31 -> zlen body < 2 ^ 31 - 1 ->
    (forall cells d, length cells = (length d + length body)%nat -> wr (filled cells d) = Some (d ++ body)) ->
    nd = zlen body -> tw = zlen (sign_text s neg) ->
    let sign := if sp_zero_flag s then no_sign else sign_char s neg in
    emits (fun b =>
      let sign_size := if negb (sign =? no_sign) then 1 else 0 in
      let put_sign (cells : list Z) := if negb (sign =? no_sign) then put1 (cells, O) sign else Some (cells, O) in
      write_padded vt align_right b s (Z.to_nat (tw + nd)) (fun b =>
        sdo (a, b) <- get_write_area_of vt b (Z.to_nat (nd + sign_size)) ;;
        fill_area vt b a (fun cells => odo ci <- put_sign cells ;; wr ci)))
      (pad_ops s align_right (length (sign_text s neg ++ body)) [Atom ((if sp_zero_flag s then [] else sign_text s neg) ++ body)]) (Ok tt).
  Proof.
    intros Hw Hl Hwr -> -> sign. cbv zeta. unfold zlen in *.
    assert (SL : (length (sign_text s neg) <= 1)%nat).
    { destruct (sign_text_cases s neg) as [E|[E _]]; rewrite E; cbn [length]; lia. }
    replace (Z.to_nat (Z.of_nat (length (sign_text s neg)) + Z.of_nat (length body))) with (length (sign_text s neg ++ body)) by (rewrite app_length; lia).
    apply (write_padded_emits vt R cap amax room HL); [discriminate|exact Hw|rewrite app_length; lia|].
    assert (C : (sign =? 0 = true /\ (if sp_zero_flag s then [] else sign_text s neg) = []) \/
                (sign =? 0 = false /\ (if sp_zero_flag s then [] else sign_text s neg) = [sign])).
    { unfold sign. destruct (sp_zero_flag s); [now left|]. destruct (sign_text_cases s neg) as [E|[E N]].
      - left. unfold sign_char. rewrite E. now split.
      - right. split; [lia|exact E]. }
    destruct C as [[-> ->]|[-> ->]]; cbn [negb].
    - replace (Z.to_nat (Z.of_nat (length body) + 0)) with (length ([] ++ body)) by (cbn [app]; lia).
      apply (emits_atom vt R cap amax room HL). intros cells Hc. cbn [obind app] in *. rewrite filled_0. rewrite Hwr by (cbn [length]; lia). reflexivity.
    - replace (Z.to_nat (Z.of_nat (length body) + 1)) with (length ([sign] ++ body)) by (cbn [app length]; lia).
      apply (emits_atom vt R cap amax room HL). intros cells Hc. cbn [app length] in Hc. rewrite filled_0.
      rewrite put1_filled by (cbn [length]; lia). cbn [obind]. apply Hwr. cbn [app length]. lia.
  Qed.

  Lemma sign_width s neg : (if neg || (sp_sign s =? 32) || (sp_sign s =? ch_plus) then 1 else 0) = zlen (sign_text s neg).
  Proof.
    unfold sign_text, zlen. destruct neg; [reflexivity|]. cbn [orb].
    destruct (sp_sign s =? 43) eqn:E1.
    - replace (sp_sign s =? 32) with false by lia. reflexivity.
    - destruct (sp_sign s =? 32); reflexivity.
  Qed.

  Lemma number_ops_sign s neg body :
    number_ops s neg [] body =
    (if sp_zero_flag s then sign_ops s neg ++ [Chunk []] else []) ++
    pad_ops s align_right (length (sign_text s neg ++ body)) [Atom ((if sp_zero_flag s then [] else sign_text s neg) ++ body)].
  Proof. unfold number_ops. cbv zeta. cbn [app]. destruct (sp_zero_flag s); [now rewrite <- app_assoc|reflexivity]. Qed.

  Lemma length_exp_text x : -1000 < x < 1000 -> zlen (exp_text x) = 1 + (if 100 <=? Z.abs x then 3 else 2).
  Proof.
    intros Hx. unfold exp_text, zlen. rewrite !app_length.
    assert (N : length (numeral 10 false (Z.abs x)) = (if (Z.abs x <? 10)%Z then 1 else if (Z.abs x <? 100)%Z then 2 else 3)%nat).
    { apply numeral_length_bounds; [lia|lia|destruct (Z.abs x <? 10)%Z; [lia|destruct (Z.abs x <? 100)%Z; lia]|].
      destruct (Z.abs x <? 10) eqn:E1; [change (Z.of_nat 1) with 1; change (10 ^ 1) with 10; lia|].
      destruct (Z.abs x <? 100) eqn:E2; [change (Z.of_nat 2) with 2; change (Z.of_nat (2 - 1)) with 1; change (10 ^ 2) with 100; change (10 ^ 1) with 10; lia|].
      change (Z.of_nat 3) with 3; change (Z.of_nat (3 - 1)) with 2; change (10 ^ 3) with 1000; change (10 ^ 2) with 100; lia. }
    rewrite N. destruct (x <? 0), (Z.abs x <? 10) eqn:E1, (Z.abs x <? 100) eqn:E2, (100 <=? Z.abs x) eqn:E3; cbn [length]; lia.
  Qed.

  (** A sign that was written at once, or is still to be written. *)
  Lemma try_write_sign_nil s neg :
    emits (fun b => try_write_sign vt b s neg) (if sp_zero_flag s then sign_ops s neg ++ [Chunk []] else [])
          (Ok (if sp_zero_flag s then no_sign else sign_char s neg)).
  Proof.
    assert (P := try_write_sign_emits vt R cap amax room HL s neg). unfold sign_ops in *. destruct (sp_zero_flag s); [|exact P].
    intros w b HR HO. rewrite ops_data_app in HO. cbn [ops_data flat_map op_data app] in HO. rewrite app_nil_r in HO.
    destruct (P w b HR HO) as (b' & HR' & E). exists b'. rewrite exec_app.
    destruct (exec cap amax w (map (fun c => Atom [c]) (sign_text s neg))) as [[|] w'] eqn:EX; cbn [fst snd] in *.
    - rewrite exec_chunk_nil by (eapply k_cap; eassumption). now split.
    - now split.
  Qed.

  Lemma fp_write_decimal_emits s fp neg ds k : 0 <= sp_width s < 2 ^ 31 ->
    (1 <= length (significant (fp_is_general fp) ds))%nat -> zlen ds <= 40000 -> -500 <= k <= 500 -> -32768 <= fp_precision fp <= 32767 ->
    emits (fun b => fp_write_decimal vt b s fp neg (ds, k)) (number_ops s neg [] (fp_body fp (sp_alternate_form s) (ds, k))) (Ok tt).
  Proof.
    intros Hw Hsig Hds Hk Hp. unfold fp_write_decimal. cbv zeta.
    fold (fp_is_general fp) (fp_is_fixed fp) (zlen ds).
    rewrite significant_size. set (sig := significant (fp_is_general fp) ds) in *.
    assert (Hsig2 : 1 <= zlen sig <= 40000).
    { split; [unfold zlen; lia|]. unfold sig, significant, zlen in *. destruct (_ && _); [rewrite firstn_length|]; lia. }
    assert (EA : Z.abs (k - 1) mod 2 ^ 16 = Z.abs (k - 1)) by (apply Z.mod_small; change (2 ^ 16) with 65536; lia).
    rewrite EA. clear EA. rewrite sign_width. rewrite number_ops_sign.
    eapply emits_bind; [apply try_write_sign_nil|].
    fold (fp_scientific fp (k - 1)). unfold fp_body. cbn [fst snd]. fold sig. set (x := k - 1) in *. assert (Hx : -501 <= x <= 499) by (unfold x; lia). clearbody x.
    assert (Z31 : 2 ^ 31 = 2147483648) by reflexivity.
    destruct (fp_scientific fp x).
    - set (nz := if fp_showpoint fp then Z.max 0 (fp_precision fp - zlen sig) else 0).
      assert (Hnz : 0 <= nz <= 40000) by (unfold nz; destruct (fp_showpoint fp); lia).
      set (dp := if negb (fp_showpoint fp) && (zlen sig =? 1) then 0 else ch_dot).
      assert (ZN : (if fp_showpoint fp then zeros (fp_precision fp - zlen sig) else []) = zeros nz).
      { unfold nz, zeros. destruct (fp_showpoint fp); [|reflexivity]. f_equal. lia. }
      assert (DP : (dp = 0 /\ fp_showpoint fp || (1 <? length sig)%nat = false /\ zlen sig = 1) \/
                   (dp = ch_dot /\ fp_showpoint fp || (1 <? length sig)%nat = true)).
      { unfold dp, zlen in *. destruct (fp_showpoint fp); cbn [negb andb orb]; [now right|].
        destruct (Z.of_nat (length sig) =? 1) eqn:E; [left|right]; repeat split; lia. }
      assert (LB : zlen (exp_body fp sig x) = zlen sig + nz + (if negb (dp =? 0) then 1 else 0) + 2 + (if 100 <=? Z.abs x then 3 else 2)).
      { unfold exp_body. rewrite ZN. unfold zlen. rewrite !app_length. unfold zeros. rewrite repeat_length.
        assert (LE := length_exp_text x ltac:(lia)). unfold zlen in *. rewrite firstn_length.
        destruct DP as [(-> & -> & D3)|(-> & ->)]; cbn [negb Z.eqb length app].
        - change (0 =? 0) with true. cbn [negb]. lia.
        - change (ch_dot =? 0) with false. cbn [negb]. rewrite skipn_length. lia. }
      clearbody nz dp.
      apply (float_padded_emits s neg (exp_body fp sig x)
        (fun ci => odo ci <- write_significand ci ds (zlen sig) 1 dp ;; odo ci <- fill_n ci nz ch_0 ;;
                   odo ci <- put1 ci (if fp_upper fp then 69 else 101) ;; write_exponent ci x)); auto.
      + destruct (negb (dp =? 0)), (100 <=? Z.abs x); lia.
      + intros cells d HC. unfold exp_body in *. rewrite ZN in *. unfold zlen in *. rewrite !app_length in HC. unfold zeros in HC. rewrite repeat_length in HC.
        assert (S1 : (odo ci <- write_significand (filled cells d) ds (Z.of_nat (length sig)) 1 dp ;; fill_n ci nz ch_0) =
          Some (filled cells (d ++ firstn 1 sig ++ (if fp_showpoint fp || (1 <? length sig)%nat then [46] ++ skipn 1 sig else []) ++ zeros nz))).
        { destruct DP as [(-> & D2 & D3)|(-> & D2)]; rewrite D2 in *.
          - unfold write_significand. rewrite firstn_length in HC. cbn [length] in HC.
            rewrite (copy_sig (fp_is_general fp) ds 1 cells d) by (fold sig; unfold zlen; lia). fold sig. cbn [obind]. change (0 =? 0) with true. cbv iota. cbn [obind].
            rewrite fill_n_filled by (rewrite ?app_length; lia). rewrite (firstn_all2 (n := 1) sig) by lia. now rewrite <- !app_assoc.
          - rewrite app_length, firstn_length, skipn_length in HC. cbn [length] in HC.
            assert (SF := significand_filled (fp_is_general fp) ds 1 cells d). fold sig in SF. cbv zeta in SF. unfold zlen in SF. rewrite SF by lia. clear SF.
            cbn [obind]. change (Z.to_nat 1) with 1%nat. rewrite fill_n_filled by (rewrite ?app_length, ?firstn_length, ?skipn_length; cbn [length]; lia).
            now rewrite <- !app_assoc. }
        destruct (write_significand (filled cells d) ds (Z.of_nat (length sig)) 1 dp) as [ci|]; [|discriminate]. cbn [obind] in S1 |- *.
        rewrite S1. cbn [obind].
        rewrite put1_filled.
        2:{ rewrite !app_length. unfold zeros. rewrite repeat_length. cbn [length] in HC. lia. }
        cbn [obind]. rewrite write_exponent_filled.
        * now rewrite <- !app_assoc.
        * lia.
        * rewrite !app_length. unfold zeros. rewrite repeat_length. cbn [length] in HC |- *. lia.
    - unfold fixed_body. cbv zeta. set (keep := sp_alternate_form s && fp_is_general fp).
      destruct (x <? 0) eqn:EX.
      + set (nz2 := if keep then fp_precision fp - zlen sig else 0).
        assert (Hnz2 : nz2 <= 40000) by (unfold nz2; destruct keep; lia).
        replace (if keep then zeros (fp_precision fp - zlen sig) else []) with (zeros (if nz2 <? 0 then 0 else nz2)).
        2:{ rewrite zeros_clip. unfold nz2. destruct keep; reflexivity. }
        replace (Z.abs x - 1) with (- x - 1) by lia. rewrite (clip_id (- x - 1)) by lia.
        set (z2 := if nz2 <? 0 then 0 else nz2). assert (Hz2 : 0 <= z2 <= 40000) by (unfold z2; destruct (nz2 <? 0) eqn:?; lia).
        clearbody z2.
        apply (float_padded_emits s neg ([48; 46] ++ zeros (- x - 1) ++ sig ++ zeros z2)
          (fun ci => odo (cells, _) <- (odo ci <- put1 ci ch_0 ;; odo ci <- put1 ci ch_dot ;; odo ci <- fill_n ci (- x - 1) ch_0 ;;
             odo ci <- copy_n ds 0 (zlen sig) ci ;; fill_n ci z2 ch_0) ;; Some cells)); auto.
        * unfold zlen, zeros in *. rewrite !app_length, !repeat_length. cbn [length]. lia.
        * intros cells d HC. unfold zeros in HC. rewrite !app_length, !repeat_length in HC. cbn [length] in HC.
          rewrite put1_filled by lia. cbn [obind]. rewrite put1_filled by (rewrite app_length; cbn [length]; lia). cbn [obind].
          rewrite fill_n_filled by (rewrite ?app_length; cbn [length]; lia). cbn [obind].
          rewrite (copy_sig (fp_is_general fp)) by (fold sig; rewrite ?app_length, ?repeat_length; cbn [length]; lia). fold sig. cbn [obind].
          rewrite fill_n_filled by (rewrite ?app_length, ?repeat_length; cbn [length]; lia). cbn [obind filled].
          f_equal. rewrite splice_full by (rewrite !app_length, !repeat_length; cbn [length]; lia). unfold zeros. now rewrite <- !app_assoc.
        * unfold zlen, zeros in *. rewrite !app_length, !repeat_length. cbn [length]. lia.
      + destruct (zlen sig <=? x + 1) eqn:EI.
        * replace (x - zlen sig + 1) with (x + 1 - zlen sig) by lia.
          destruct (fp_showpoint fp).
          -- set (nz2 := if keep then fp_precision fp - zlen sig - (x + 1 - zlen sig) else if x + 1 - zlen sig =? 0 then fp_precision fp else 0).
             assert (Hnz2 : nz2 <= 40000) by (unfold nz2; destruct keep; [lia|]; destruct (x + 1 - zlen sig =? 0); lia).
             replace (if keep then zeros (fp_precision fp - (x + 1)) else if x + 1 =? zlen sig then zeros (fp_precision fp) else [])
               with (zeros (if nz2 <? 0 then 0 else nz2)).
             2:{ rewrite zeros_clip. unfold nz2. destruct keep; [apply zeros_neg; lia|].
                 replace (x + 1 - zlen sig =? 0) with (x + 1 =? zlen sig) by lia. destruct (x + 1 =? zlen sig); reflexivity. }
             rewrite (clip_id (x + 1 - zlen sig)) by lia.
             set (z2 := if nz2 <? 0 then 0 else nz2). assert (Hz2 : 0 <= z2 <= 40000) by (unfold z2; destruct (nz2 <? 0) eqn:?; lia).
             clearbody z2.
             apply (float_padded_emits s neg (sig ++ zeros (x + 1 - zlen sig) ++ [46] ++ zeros z2)
               (fun ci => odo (cells, _) <- (odo ci <- copy_n ds 0 (zlen sig) ci ;; odo ci <- fill_n ci (x + 1 - zlen sig) ch_0 ;;
                  odo ci <- put1 ci ch_dot ;; fill_n ci z2 ch_0) ;; Some cells)); auto.
             ++ unfold zlen, zeros in *. rewrite !app_length, !repeat_length. cbn [length]. lia.
             ++ intros cells d HC. unfold zeros in HC. rewrite !app_length, !repeat_length in HC. cbn [length] in HC.
                rewrite (copy_sig (fp_is_general fp)) by (fold sig; lia). fold sig. cbn [obind].
                rewrite fill_n_filled by (rewrite ?app_length; unfold zlen in *; lia). cbn [obind].
                rewrite put1_filled by (rewrite ?app_length, repeat_length; unfold zlen in *; lia). cbn [obind].
                rewrite fill_n_filled by (rewrite ?app_length, ?repeat_length; cbn [length]; unfold zlen in *; lia). cbn [obind filled].
                f_equal. rewrite splice_full by (rewrite !app_length, !repeat_length; cbn [length]; lia). unfold zeros. now rewrite <- !app_assoc.
             ++ unfold zlen, zeros in *. rewrite !app_length, !repeat_length. cbn [length]. lia.
          -- rewrite (clip_id (x + 1 - zlen sig)) by lia.
             apply (float_padded_emits s neg (sig ++ zeros (x + 1 - zlen sig) ++ [])
               (fun ci => odo (cells, _) <- (odo ci <- copy_n ds 0 (zlen sig) ci ;; odo ci <- fill_n ci (x + 1 - zlen sig) ch_0 ;;
                  if negb (0 =? 0) then odo ci <- put1 ci ch_dot ;; fill_n ci (if 0 <? 0 then 0 else 0) ch_0 else Some ci) ;; Some cells)); auto.
             ++ unfold zlen, zeros in *. rewrite !app_length, !repeat_length. cbn [length]. lia.
             ++ intros cells d HC. unfold zeros in HC. rewrite !app_length, !repeat_length in HC. cbn [length] in HC.
                rewrite (copy_sig (fp_is_general fp)) by (fold sig; lia). fold sig. cbn [obind].
                rewrite fill_n_filled by (rewrite ?app_length; unfold zlen in *; lia). cbn [obind]. change (0 =? 0) with true. cbn [negb obind filled].
                f_equal. rewrite splice_full by (rewrite !app_length, !repeat_length; cbn [length]; lia). unfold zeros. rewrite app_nil_r. now rewrite <- !app_assoc.
             ++ unfold zlen, zeros in *. rewrite !app_length, !repeat_length. cbn [length]. change (if 0 <? 0 then 0 else 0) with 0. lia.
        * set (nz := if fp_is_fixed fp && (x + 1 <? zlen sig) && (zlen sig - (x + 1) <? fp_precision fp)
                     then fp_precision fp - (zlen sig - (x + 1)) else if keep then fp_precision fp - zlen sig else 0).
          replace (if fp_is_fixed fp && (zlen sig - (x + 1) <? fp_precision fp)
                   then zeros (fp_precision fp - (zlen sig - (x + 1))) else if keep then zeros (fp_precision fp - zlen sig) else [])
            with (zeros (if nz <? 0 then 0 else nz)).
          2:{ rewrite zeros_clip. unfold nz. replace (x + 1 <? zlen sig) with true by lia. rewrite andb_true_r.
              clear. destruct (fp_is_fixed fp && (zlen sig - (x + 1) <? fp_precision fp)); [reflexivity|]. destruct keep; reflexivity. }
          assert (Hnz : nz <= 40000) by (unfold nz; destruct (fp_is_fixed fp && _ && _); [lia|]; destruct keep; lia).
          set (z := if nz <? 0 then 0 else nz). assert (Hz : 0 <= z <= 40000) by (unfold z; destruct (nz <? 0) eqn:?; lia).
          clearbody z. change (if 0 <? 0 then 0 else 0) with 0.
          apply (float_padded_emits s neg (firstn (Z.to_nat (x + 1)) sig ++ [46] ++ skipn (Z.to_nat (x + 1)) sig ++ zeros z)
            (fun ci => odo (cells, _) <- (odo ci <- write_significand ci ds (zlen sig) (x + 1) ch_dot ;; fill_n ci z ch_0) ;; Some cells)); auto.
          -- unfold zlen, zeros in *. rewrite !app_length, !repeat_length, firstn_length, skipn_length. cbn [length]. lia.
          -- intros cells d HC. unfold zeros in HC. rewrite !app_length, !repeat_length, firstn_length, skipn_length in HC. cbn [length] in HC.
             assert (SF := significand_filled (fp_is_general fp) ds (x + 1) cells d). fold sig in SF. cbv zeta in SF.
             rewrite SF by (unfold zlen in *; lia). clear SF. cbn [obind].
             rewrite fill_n_filled by (rewrite ?app_length, ?firstn_length, ?skipn_length; cbn [length]; unfold zlen in *; lia). cbn [obind filled].
             f_equal. rewrite splice_full by (rewrite !app_length, !repeat_length, firstn_length, skipn_length; cbn [length]; unfold zlen in *; lia).
             unfold zeros. now rewrite <- !app_assoc.
          -- unfold zlen, zeros in *. rewrite !app_length, !repeat_length, firstn_length, skipn_length. cbn [length]. lia.
  Qed.
End E.
