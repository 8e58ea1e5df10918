(** The buffer of [SpecWriter] that hands out its space in pieces. *)
From Verif Require Import Base Lib Buffer SpecWriter BufferProofs Emits.

Definition piece_R (w : list Z) (b : bst piece_k) : Prop :=
  b_fixed b = false /\ b_used b = s_len (b_area b) /\ p_mem (b_kind b) = w.

Lemma piece_chunky : chunky piece_vt piece_R None None.
Proof.
  constructor; [reflexivity|reflexivity|intros; exact Logic.I|].
  intros w b n (H1 & H2 & H3) Hn _. right. unfold get_write_area_of_max. rewrite H1, H2, Nat.sub_diag.
  replace (n <=? 0)%nat with false by lia. cbn. eexists _, _. split; [reflexivity|]. cbn.
  rewrite app_length, repeat_length. split; [lia|]. split; [lia|]. split; [exact Logic.I|].
  intros d Hd. unfold piece_R, put_area. cbn. repeat split; auto.
  rewrite H3. unfold splice. rewrite firstn_app_length by reflexivity. f_equal.
  rewrite skipn_all2; [apply app_nil_r|]. rewrite app_length, repeat_length. lia.
Qed.

Lemma piece_buffer_init sizes : piece_R [] (piece_buffer sizes).
Proof. repeat split. Qed.
