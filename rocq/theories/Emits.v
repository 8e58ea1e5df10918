(** What a sequence of writes does to any lawful buffer.

    A formatter is described by the list of its writes: [Chunk d] may be split
    over several areas ([write_str], [write_char_n], ...), [Atom d] needs one
    area ([get_write_area_of]). *)
From Verif Require Import Base Lib Buffer BufferProofs.

Inductive op := Chunk (d : list Z) | Atom (d : list Z).
Definition op_data (o : op) : list Z := match o with Chunk d => d | Atom d => d end.

(** Everything that is written when nothing fails. *)
Definition ops_data (ops : list op) : list Z := flat_map op_data ops.

Definition oboundb (o : option nat) (n : nat) : bool := match o with None => true | Some c => (n <=? c)%nat end.
Definition ofirstn (o : option nat) (l : list Z) : list Z := match o with None => l | Some c => firstn c l end.

Section Exec.
  Context (cap amax : option nat).

  (** Success, and everything written, after one write on top of [w]. *)
  Definition exec1 (w : list Z) (o : op) : bool * list Z :=
    match o with
    | Chunk d => (oboundb cap (length w + length d), ofirstn cap (w ++ d))
    | Atom d =>
      if oboundb cap (length w + length d) && oboundb amax (length d) then (true, w ++ d) else (false, w)
    end.

  (** The writes are made until one fails. *)
  Fixpoint exec (w : list Z) (ops : list op) : bool * list Z :=
    match ops with
    | [] => (true, w)
    | o :: ops => let (ok, w) := exec1 w o in if ok then exec w ops else (false, w)
    end.

  Lemma exec_app w ops1 ops2 :
    exec w (ops1 ++ ops2) = let (ok, w') := exec w ops1 in if ok then exec w' ops2 else (false, w').
  Proof.
    revert w; induction ops1 as [|o ops1 IH]; intros w; [reflexivity|].
    cbn. destruct (exec1 w o) as [[|] w']; [apply IH|reflexivity].
  Qed.

  Lemma exec1_ok w o : fst (exec1 w o) = true -> snd (exec1 w o) = w ++ op_data o.
  Proof.
    destruct o as [d|d]; cbn.
    - unfold oboundb, ofirstn. destruct cap; intros H; [|reflexivity]. apply firstn_all2. rewrite app_length. lia.
    - destruct (_ && _); [reflexivity|discriminate].
  Qed.

  Lemma exec_ok w ops : fst (exec w ops) = true -> snd (exec w ops) = w ++ ops_data ops.
  Proof.
    revert w; induction ops as [|o ops IH]; intros w H; cbn in *; [now rewrite app_nil_r|].
    assert (E := exec1_ok w o). destruct (exec1 w o) as [[|] w']; cbn in *; [|discriminate].
    rewrite IH by assumption. rewrite E by reflexivity. now rewrite <- app_assoc.
  Qed.

  Lemma exec1_prefix w o : obound cap (length w) ->
    exists n, snd (exec1 w o) = w ++ firstn n (op_data o).
  Proof.
    intros HC. destruct o as [d|d]; cbn.
    - unfold ofirstn. destruct cap as [c|].
      + exists (c - length w)%nat. rewrite firstn_app. simpl in HC. now rewrite firstn_all2 by lia.
      + exists (length d). now rewrite firstn_all.
    - destruct (_ && _); [exists (length d); now rewrite firstn_all|exists O; cbn; now rewrite app_nil_r].
  Qed.

  Lemma exec1_cap w o : obound cap (length w) -> obound cap (length (snd (exec1 w o))).
  Proof.
    intros HC. destruct o as [d|d]; cbn.
    - unfold ofirstn, obound in *. destruct cap as [c|]; [|exact Logic.I]. rewrite firstn_length. lia.
    - destruct (oboundb cap (length w + length d)) eqn:E; cbn; [|exact HC].
      destruct (oboundb amax (length d)); cbn; [|exact HC].
      unfold obound, oboundb in *. destruct cap; [|exact Logic.I]. rewrite app_length. lia.
  Qed.

  (** Whatever happens, what is written is a prefix of everything. *)
  Lemma exec_prefix w ops : obound cap (length w) ->
    exists n, snd (exec w ops) = w ++ firstn n (ops_data ops).
  Proof.
    revert w; induction ops as [|o ops IH]; intros w HC; cbn.
    - exists O. cbn. now rewrite app_nil_r.
    - assert (E := exec1_ok w o). assert (P := exec1_prefix w o HC). assert (C := exec1_cap w o HC).
      destruct (exec1 w o) as [[|] w']; cbn in *.
      + destruct (IH w' C) as (n & ->). rewrite E by reflexivity. exists (length (op_data o) + n)%nat.
        rewrite firstn_app_2. now rewrite <- app_assoc.
      + destruct P as (n & ->). exists (Nat.min n (length (op_data o))).
        rewrite firstn_app. replace (Nat.min n (length (op_data o)) - length (op_data o))%nat with O by lia.
        cbn. rewrite app_nil_r. f_equal. destruct (le_lt_dec n (length (op_data o))).
        * f_equal. lia.
        * rewrite !firstn_all2 by lia. reflexivity.
  Qed.

  Lemma exec_cap w ops : obound cap (length w) -> obound cap (length (snd (exec w ops))).
  Proof.
    revert w; induction ops as [|o ops IH]; intros w HC; cbn; [assumption|].
    assert (C := exec1_cap w o HC). destruct (exec1 w o) as [[|] w']; cbn in *; auto.
  Qed.
  Lemma exec1_full w d : cap = Some (length w) -> d <> [] -> exec1 w (Chunk d) = (false, w).
  Proof.
    intros E Hd. cbn. rewrite E. cbn. rewrite firstn_app_length by reflexivity. f_equal. destruct d; [congruence|]. cbn [length]. lia.
  Qed.

  Lemma exec1_split w d1 d2 : obound cap (length w + length d1) ->
    exec1 w (Chunk (d1 ++ d2)) = exec1 (w ++ d1) (Chunk d2).
  Proof. intros _. cbn. rewrite !app_length, app_assoc, Nat.add_assoc. reflexivity. Qed.

  Lemma exec_single w o : exec w [o] = exec1 w o.
  Proof. cbn. destruct (exec1 w o) as [[|] w']; reflexivity. Qed.
  Lemma exec1_fits w d : obound cap (length w + length d) -> exec1 w (Chunk d) = (true, w ++ d).
  Proof.
    unfold exec1, obound, oboundb, ofirstn. destruct cap as [c0|]; [|reflexivity]. intros H.
    f_equal; [lia|]. apply firstn_all2. rewrite app_length. lia.
  Qed.
End Exec.

(** Without limits everything is written. *)
Lemma exec_unlimited w ops : exec None None w ops = (true, w ++ ops_data ops).
Proof.
  revert w; induction ops as [|o ops IH]; intros w; cbn; [now rewrite app_nil_r|].
  destruct o as [d|d]; cbn; rewrite IH, <- app_assoc; reflexivity.
Qed.

(** Only the total size matters when areas are not limited. *)
Lemma exec_cap_only c w ops : (length w <= c)%nat ->
  fst (exec (Some c) None w ops) = (length w + length (ops_data ops) <=? c)%nat.
Proof.
  revert w; induction ops as [|o ops IH]; intros w HC; cbn; [symmetry; apply Nat.leb_le; lia|].
  rewrite app_length.
  destruct o as [d|d]; cbn.
  - destruct (length w + length d <=? c)%nat eqn:E; cbn.
    + rewrite firstn_all2 by (rewrite app_length; lia). rewrite IH by (rewrite app_length; lia).
      rewrite app_length. unfold ops_data. f_equal. lia.
    + lia.
  - destruct (length w + length d <=? c)%nat eqn:E; cbn.
    + rewrite IH by (rewrite app_length; lia). rewrite app_length. unfold ops_data. f_equal. lia.
    + lia.
Qed.

(** If no write needs an area larger than the largest one, all succeed. *)
Definition atoms_within (m : nat) (ops : list op) : Prop :=
  Forall (fun o => match o with Chunk _ => True | Atom d => (length d <= m)%nat end) ops.

Lemma exec_atoms m w ops : atoms_within m ops -> exec None (Some m) w ops = (true, w ++ ops_data ops).
Proof.
  intros H. revert w. induction H as [|o ops Ho _ IH]; intros w; cbn; [now rewrite app_nil_r|].
  destruct o as [d|d]; cbn.
  - rewrite IH, <- app_assoc. reflexivity.
  - replace (length d <=? m)%nat with true by lia. rewrite IH, <- app_assoc. reflexivity.
Qed.

Lemma atoms_within_app m o1 o2 : atoms_within m (o1 ++ o2) <-> atoms_within m o1 /\ atoms_within m o2.
Proof. apply Forall_app. Qed.

Lemma ops_data_app o1 o2 : ops_data (o1 ++ o2) = ops_data o1 ++ ops_data o2.
Proof. apply flat_map_app. Qed.

(** ** Buffers that hand out their space in pieces

    A weaker law: a request of [n > 0] characters is granted between 1 and [n]
    characters, whatever the buffer likes, or fails with eof when the buffer is
    full. *)
Record chunky {K} (vt : vtable K) (R : list Z -> bst K -> Prop) (cap room : option nat) : Prop := {
  k_put_cells : forall k c, v_cells vt (v_put vt k c) = c;
  k_put_put : forall k c c', v_put vt (v_put vt k c) c' = v_put vt k c';
  k_cap : forall w b, R w b -> obound cap (length w);
  k_area : forall w b n, R w b -> (0 < n)%nat -> obound room (length w + n) ->
    (exists b', get_write_area_of_max vt b n = (Err eof, b') /\ R w b' /\ cap = Some (length w)) \/
    (exists a b', get_write_area_of_max vt b n = (Ok a, b') /\ (0 < s_len a <= n)%nat /\
       (s_off a + s_len a <= length (v_cells vt (b_kind b')))%nat /\
       obound cap (length w + s_len a) /\
       forall d, length d = s_len a -> R (w ++ d) (put_area vt b' a d))
}.

Lemma lawful_chunky {K} (vt : vtable K) R cap amax room : lawful vt R cap amax room -> chunky vt R cap room.
Proof.
  intros HL. constructor; [apply (l_put_cells _ _ _ _ _ HL)|apply (l_put_put _ _ _ _ _ HL)|apply (l_cap _ _ _ _ _ HL)|].
  intros w b n HR Hn HO. assert (M := l_max _ _ _ _ _ HL w b n HR HO). cbn zeta in M.
  assert (C := l_cap _ _ _ _ _ HL w b HR). assert (A := l_amax _ _ _ _ _ HL).
  destruct ((grant cap amax (length w) n =? 0)%nat && negb (n =? 0)%nat) eqn:E.
  - left. destruct M as (b' & M & HR'). exists b'. split; [exact M|]. split; [exact HR'|].
    unfold grant, omin, osub, obound in *. destruct cap as [c|], amax; try (f_equal; lia); lia.
  - right. destruct M as (a & b' & M & L & B & P & _). exists a, b'. split; [exact M|].
    unfold grant, omin, osub, obound in *. split; [destruct cap, amax; lia|]. split; [exact B|].
    split; [destruct cap, amax; lia|]. exact P.
Qed.

Lemma put_area_app {K} (vt : vtable K) R cap room (HK : chunky vt R cap room) b a d1 d2 :
  (length d1 + length d2 <= s_len a)%nat -> (s_off a + s_len a <= length (v_cells vt (b_kind b)))%nat ->
  put_area vt (put_area vt b a d1) (subspan a (length d1)) d2 = put_area vt b a (d1 ++ d2).
Proof.
  intros H1 H2. unfold put_area, set_kind. cbn. rewrite (k_put_put _ _ _ _ HK), (k_put_cells _ _ _ _ HK).
  do 2 f_equal. apply splice_app. lia.
Qed.

Lemma put_area_cells {K} (vt : vtable K) R cap room (HK : chunky vt R cap room) b a d : (s_off a + length d <= length (v_cells vt (b_kind b)))%nat ->
  length (v_cells vt (b_kind (put_area vt b a d))) = length (v_cells vt (b_kind b)).
Proof.
  intros H. unfold put_area. cbn. rewrite (k_put_cells _ _ _ _ HK). now apply splice_length.
Qed.

Lemma store_area_ok {K} (vt : vtable K) b a d :
  (length d <= s_len a)%nat -> (s_off a + s_len a <= length (v_cells vt (b_kind b)))%nat ->
  store_area vt b a d = (Ok tt, put_area vt b a d).
Proof.
  intros H1 H2. unfold store_area, put_area. replace (length d <=? s_len a)%nat with true by lia.
  rewrite store_list_ok by lia. reflexivity.
Qed.

(** Filling an area with a function that overwrites it completely. *)
Lemma fill_area_ok {K} (vt : vtable K) b a f d :
  (s_off a + s_len a <= length (v_cells vt (b_kind b)))%nat -> length d = s_len a ->
  (forall cells, length cells = s_len a -> f cells = Some d) ->
  fill_area vt b a f = (Ok tt, put_area vt b a d).
Proof.
  intros H1 H2 H3. unfold fill_area.
  replace (s_off a + s_len a <=? length (v_cells vt (b_kind b)))%nat with true by lia.
  rewrite H3 by (rewrite firstn_length, skipn_length; lia).
  replace (length d =? s_len a)%nat with true by lia. apply store_area_ok; lia.
Qed.

(** ** Emission *)
Section Emits.
  Context {K : Type} (vt : vtable K) (R : list Z -> bst K -> Prop) (cap amax room : option nat).

  (** [m] makes the writes [ops] and returns [o] (or fails with eof when one of
      the writes does). *)
  Definition emits {A} (m : bst K -> outcome A * bst K) (ops : list op) (o : outcome A) : Prop :=
    forall w b, R w b -> obound room (length w + length (ops_data ops)) ->
    exists b', R (snd (exec cap amax w ops)) b' /\
               m b = (if fst (exec cap amax w ops) then o else Err eof, b').

  Lemma emits_ret {A} (o : outcome A) : emits (fun b => (o, b)) [] o.
  Proof. intros w b HR _. exists b. now split. Qed.

  Lemma emits_ext {A} (m m' : bst K -> outcome A * bst K) ops o :
    (forall b, m b = m' b) -> emits m' ops o -> emits m ops o.
  Proof. intros E H w b HR HO. rewrite E. now apply H. Qed.

  Lemma obound_le (x : option nat) n m : (n <= m)%nat -> obound x m -> obound x n.
  Proof. destruct x; cbn; [lia|auto]. Qed.

  Lemma emits_bind {A B} (m : bst K -> outcome A * bst K) (f : A -> bst K -> outcome B * bst K) ops1 ops2 a o :
    emits m ops1 (Ok a) -> emits (f a) ops2 o ->
    emits (fun b => sbind (m b) f) (ops1 ++ ops2) o.
  Proof.
    intros H1 H2 w b HR HO. rewrite ops_data_app, app_length in HO.
    destruct (H1 w b HR) as (b1 & HR1 & E1); [eapply obound_le; [|exact HO]; lia|].
    rewrite exec_app. assert (EO := exec_ok cap amax w ops1).
    destruct (exec cap amax w ops1) as [[|] w1]; cbn in *.
    - destruct (H2 w1 b1 HR1) as (b2 & HR2 & E2).
      { rewrite EO by reflexivity. rewrite app_length, <- Nat.add_assoc. exact HO. }
      exists b2. split; [exact HR2|]. now rewrite E1.
    - exists b1. split; [exact HR1|]. now rewrite E1.
  Qed.

  (** An error that is not from writing ends the call. *)
  Lemma emits_bind_err {A B} (m : bst K -> outcome A * bst K) (f : A -> bst K -> outcome B * bst K) ops e :
    emits m ops (Err e) -> emits (fun b => sbind (m b) f) ops (Err e).
  Proof.
    intros H1 w b HR HO. destruct (H1 w b HR HO) as (b1 & HR1 & E1).
    exists b1. split; [exact HR1|]. rewrite E1. destruct (fst (exec cap amax w ops)); reflexivity.
  Qed.

  Lemma emits_err_nil {A B} (o : outcome A) (f : A -> bst K -> outcome B * bst K) e :
    o = Err e -> emits (fun b => sbind (o, b) f) [] (Err e).
  Proof. intros -> w b HR _. exists b. now split. Qed.
End Emits.

Section Atoms.
  Context {K : Type} (vt : vtable K) (R : list Z -> bst K -> Prop) (cap amax room : option nat).
  Context (HL : lawful vt R cap amax room).
  Notation emits := (emits R cap amax room).

  (** get_write_area_of: an area of exactly this size or eof. *)
  Lemma area_of w b n : R w b -> obound room (length w + n) ->
    if oboundb cap (length w + n) && oboundb amax n then
      exists a b', get_write_area_of vt b n = (Ok a, b') /\ s_len a = n /\
        (s_off a + s_len a <= length (v_cells vt (b_kind b')))%nat /\
        (forall d, length d = n -> R (w ++ d) (put_area vt b' a d))
    else exists b', get_write_area_of vt b n = (Err eof, b') /\ R w b'.
  Proof.
    intros HR HO. assert (M := l_max _ _ _ _ _ HL w b n HR HO). cbn zeta in M.
    assert (C := l_cap _ _ _ _ _ HL w b HR). assert (A := l_amax _ _ _ _ _ HL).
    assert (G : (n <=? grant cap amax (length w) n)%nat = oboundb cap (length w + n) && oboundb amax n).
    { unfold grant, omin, osub, oboundb. unfold obound in C. destruct cap, amax; lia. }
    unfold get_write_area_of. rewrite <- G.
    destruct ((grant cap amax (length w) n =? 0)%nat && negb (n =? 0)%nat) eqn:E.
    - destruct M as (b' & -> & HR'). replace (n <=? grant cap amax (length w) n)%nat with false by lia.
      exists b'. now split.
    - destruct M as (a & b' & -> & L & B & P & U). cbn [sbind]. rewrite L.
      destruct (n <=? grant cap amax (length w) n)%nat eqn:E2.
      + replace (grant cap amax (length w) n <? n)%nat with false by lia.
        assert (L2 : s_len a = n).
        { rewrite L. apply Nat.leb_le in E2. clear -E2. unfold grant, omin, osub in *. destruct cap, amax; lia. }
        exists a, b'. split; [reflexivity|]. split; [exact L2|]. split; [exact B|].
        intros d Hd. apply P. lia.
      + replace (grant cap amax (length w) n <? n)%nat with true by lia.
        eexists. split; [reflexivity|]. rewrite <- L. exact U.
  Qed.

  (** A call that takes one area and fills it completely. *)
  Lemma emits_atom (f : list Z -> option (list Z)) d :
    (forall cells, length cells = length d -> f cells = Some d) ->
    emits (fun b => sbind (get_write_area_of vt b (length d)) (fun a b => fill_area vt b a f)) [Atom d] (Ok tt).
  Proof.
    intros Hf w b HR HO. cbn in HO. rewrite app_nil_r in HO. assert (M := area_of w b _ HR HO).
    cbn. destruct (oboundb cap (length w + length d) && oboundb amax (length d)).
    - destruct M as (a & b' & -> & L & B & P). cbn. exists (put_area vt b' a d). split; [now apply P|].
      apply fill_area_ok; [lia|lia|]. intros cells Hc. apply Hf. lia.
    - destruct M as (b' & -> & HR'). exists b'. now split.
  Qed.

  Lemma emits_store d :
    emits (fun b => sbind (get_write_area_of vt b (length d)) (fun a b => store_area vt b a d)) [Atom d] (Ok tt).
  Proof.
    intros w b HR HO. cbn in HO. rewrite app_nil_r in HO. assert (M := area_of w b _ HR HO).
    cbn. destruct (oboundb cap (length w + length d) && oboundb amax (length d)).
    - destruct M as (a & b' & -> & L & B & P). cbn. exists (put_area vt b' a d). split; [now apply P|].
      apply store_area_ok; lia.
    - destruct M as (b' & -> & HR'). exists b'. now split.
  Qed.

End Atoms.
