(** Facts about the parsers of Protos.v: what is parsed satisfies the range conditions of
    the setters, and parsing fails only with DecodeError. *)
From Verif Require Import PyBase Wire Protos.

(** A raw field as the decoder can deliver it. *)
Definition raw_ok (f : wfield) : Prop :=
  match f.2 with WVar n => (n < 2 ^ 64)%N | W64 n => (n < 2 ^ 64)%N | _ => True end.

Lemma le_dec_bound bs : (le_dec bs < 256 ^ N.of_nat (length bs))%N.
Proof.
  induction bs as [|b bs IH]; [done|]. cbn [le_dec length].
  rewrite Nat2N.inj_succ, N.pow_succ_r'. pose proof (b2n_lt b). lia.
Qed.

Lemma dec_fixed_bound bs v r : dec_fixed 8 bs = Some (v, r) -> (v < 2 ^ 64)%N.
Proof.
  unfold dec_fixed. case_match eqn:E; [|done]. intros [= <- <-].
  eapply N.lt_le_trans; [apply le_dec_bound|]. rewrite take_length.
  apply Nat.leb_le in E. replace (8 `min` length bs) with 8 by lia. done.
Qed.

Lemma dec_value_bound bs v r : dec_value bs = Some (v, r) -> (v < 2 ^ 64)%N.
Proof. unfold dec_value. repeat case_match; try done. intros [= <- <-]. by apply N.mod_lt. Qed.

Lemma dec_fields_raw_ok fuel grp bs fs e : dec_fields fuel grp bs = Some (fs, e) -> Forall raw_ok fs.
Proof.
  revert grp bs fs e. induction fuel as [|f IH]; intros grp bs fs e; [done|].
  cbn [dec_fields].
  repeat (case_match; try done); intros [= <- <-]; simplify_eq; try by constructor.
  all: try (constructor; [|by eauto]); unfold raw_ok; cbn [snd]; eauto using dec_value_bound, dec_fixed_bound.
Qed.

Lemma parse_raw_ok bs fs : parse_raw bs = Ok fs -> Forall raw_ok fs.
Proof.
  unfold parse_raw. repeat case_match; try done. intros [= <-]. by eapply dec_fields_raw_ok.
Qed.

Lemma fold_fields_inv {A} (P : A -> Prop) (f : A -> wfield -> res A) a a' fs :
  (forall a x a', P a -> raw_ok x -> f a x = Ok a' -> P a') ->
  P a -> Forall raw_ok fs -> fold_fields f a fs = Ok a' -> P a'.
Proof.
  intros Hf Ha Hfs. revert a Ha. induction Hfs as [|x fs Hx Hfs IH]; intros a Ha; cbn [fold_fields].
  - by intros [= <-].
  - intros (b & Hb & H)%bind_ok_inv. eauto.
Qed.

Lemma fold_fields_err {A} (f : A -> wfield -> res A) a fs e :
  (forall a x e, f a x = Err e -> e = EDecodeError) ->
  fold_fields f a fs = Err e -> e = EDecodeError.
Proof.
  intros Hf. revert a. induction fs as [|x fs IH]; intros a; cbn [fold_fields]; [done|].
  intros [H|(b & Hb & H)]%bind_err_inv; eauto.
Qed.

Lemma u32_lt v : (u32 v < 2 ^ 32)%N.
Proof. unfold u32. by apply N.mod_lt. Qed.

Lemma i32_range v : (- 2 ^ 31 <= i32 v < 2 ^ 31)%Z.
Proof.
  unfold i32. pose proof (u32_lt v). destruct (u32 v <? 2 ^ 31)%N eqn:E;
    [apply N.ltb_lt in E|apply N.ltb_ge in E]; lia.
Qed.

Lemma wm_empty_wf : wm_wf wm_empty.
Proof. by repeat constructor. Qed.

Lemma wm_step_wf m x m' : wm_wf m -> raw_ok x -> wm_step m x = Ok m' -> wm_wf m'.
Proof.
  unfold wm_wf, wm_step. intros Hwf Hx. destruct_and? Hwf.
  repeat case_match; first [intros [= <-]|intros (c & Hc & [= <-])%bind_ok_inv]; simplify_eq; cbn;
  repeat split; try done; try apply u32_lt; try apply i32_range; try (unfold raw_ok in Hx; exact Hx).
Qed.
Lemma wm_merge_wf m bs m' : wm_wf m -> wm_merge m bs = Ok m' -> wm_wf m'.
Proof.
  intros Hm (fs & Hfs & H)%bind_ok_inv. eapply fold_fields_inv; [|exact Hm| |exact H].
  - intros a x a'. apply wm_step_wf.
  - by eapply parse_raw_ok.
Qed.
Lemma wm_parse_wf bs m : wm_parse bs = Ok m -> wm_wf m.
Proof. apply wm_merge_wf, wm_empty_wf. Qed.
Lemma wm_step_err m x e : wm_step m x = Err e -> e = EDecodeError.
Proof.
  unfold wm_step. repeat case_match; try done.
Qed.
Lemma wm_merge_err m bs e : wm_merge m bs = Err e -> e = EDecodeError.
Proof.
  intros [H|(fs & _ & H)]%bind_err_inv; [by eapply parse_raw_err|].
  eapply fold_fields_err; [|exact H]. intros a x e'. apply wm_step_err.
Qed.
Lemma wm_parse_err bs e : wm_parse bs = Err e -> e = EDecodeError.
Proof. apply wm_merge_err. Qed.

Lemma pk_empty_wf : pk_wf pk_empty.
Proof. by repeat constructor. Qed.

Lemma pk_step_wf m x m' : pk_wf m -> raw_ok x -> pk_step m x = Ok m' -> pk_wf m'.
Proof.
  unfold pk_wf, pk_step. intros Hwf Hx. destruct_and? Hwf.
  repeat case_match; first [intros [= <-]|intros (c & Hc & [= <-])%bind_ok_inv]; simplify_eq; cbn;
  repeat split; try done; try apply u32_lt; try apply i32_range; try (unfold raw_ok in Hx; exact Hx).
Qed.
Lemma pk_merge_wf m bs m' : pk_wf m -> pk_merge m bs = Ok m' -> pk_wf m'.
Proof.
  intros Hm (fs & Hfs & H)%bind_ok_inv. eapply fold_fields_inv; [|exact Hm| |exact H].
  - intros a x a'. apply pk_step_wf.
  - by eapply parse_raw_ok.
Qed.
Lemma pk_parse_wf bs m : pk_parse bs = Ok m -> pk_wf m.
Proof. apply pk_merge_wf, pk_empty_wf. Qed.
Lemma pk_step_err m x e : pk_step m x = Err e -> e = EDecodeError.
Proof.
  unfold pk_step. repeat case_match; try done.
Qed.
Lemma pk_merge_err m bs e : pk_merge m bs = Err e -> e = EDecodeError.
Proof.
  intros [H|(fs & _ & H)]%bind_err_inv; [by eapply parse_raw_err|].
  eapply fold_fields_err; [|exact H]. intros a x e'. apply pk_step_err.
Qed.
Lemma pk_parse_err bs e : pk_parse bs = Err e -> e = EDecodeError.
Proof. apply pk_merge_err. Qed.

Lemma kx_empty_wf : kx_wf kx_empty.
Proof. by repeat constructor. Qed.

Lemma kx_step_wf m x m' : kx_wf m -> raw_ok x -> kx_step m x = Ok m' -> kx_wf m'.
Proof.
  unfold kx_wf, kx_step. intros Hwf Hx. destruct_and? Hwf.
  repeat case_match; first [intros [= <-]|intros (c & Hc & [= <-])%bind_ok_inv]; simplify_eq; cbn;
  repeat split; try done; try apply u32_lt; try apply i32_range; try (unfold raw_ok in Hx; exact Hx).
Qed.
Lemma kx_merge_wf m bs m' : kx_wf m -> kx_merge m bs = Ok m' -> kx_wf m'.
Proof.
  intros Hm (fs & Hfs & H)%bind_ok_inv. eapply fold_fields_inv; [|exact Hm| |exact H].
  - intros a x a'. apply kx_step_wf.
  - by eapply parse_raw_ok.
Qed.
Lemma kx_parse_wf bs m : kx_parse bs = Ok m -> kx_wf m.
Proof. apply kx_merge_wf, kx_empty_wf. Qed.
Lemma kx_step_err m x e : kx_step m x = Err e -> e = EDecodeError.
Proof.
  unfold kx_step. repeat case_match; try done.
Qed.
Lemma kx_merge_err m bs e : kx_merge m bs = Err e -> e = EDecodeError.
Proof.
  intros [H|(fs & _ & H)]%bind_err_inv; [by eapply parse_raw_err|].
  eapply fold_fields_err; [|exact H]. intros a x e'. apply kx_step_err.
Qed.
Lemma kx_parse_err bs e : kx_parse bs = Err e -> e = EDecodeError.
Proof. apply kx_merge_err. Qed.

Lemma sk_empty_wf : sk_wf sk_empty.
Proof. by repeat constructor. Qed.

Lemma sk_step_wf m x m' : sk_wf m -> raw_ok x -> sk_step m x = Ok m' -> sk_wf m'.
Proof.
  unfold sk_wf, sk_step. intros Hwf Hx. destruct_and? Hwf.
  repeat case_match; first [intros [= <-]|intros (c & Hc & [= <-])%bind_ok_inv]; simplify_eq; cbn;
  repeat split; try done; try apply u32_lt; try apply i32_range; try (unfold raw_ok in Hx; exact Hx).
Qed.
Lemma sk_merge_wf m bs m' : sk_wf m -> sk_merge m bs = Ok m' -> sk_wf m'.
Proof.
  intros Hm (fs & Hfs & H)%bind_ok_inv. eapply fold_fields_inv; [|exact Hm| |exact H].
  - intros a x a'. apply sk_step_wf.
  - by eapply parse_raw_ok.
Qed.
Lemma sk_parse_wf bs m : sk_parse bs = Ok m -> sk_wf m.
Proof. apply sk_merge_wf, sk_empty_wf. Qed.
Lemma sk_step_err m x e : sk_step m x = Err e -> e = EDecodeError.
Proof.
  unfold sk_step. repeat case_match; try done.
Qed.
Lemma sk_merge_err m bs e : sk_merge m bs = Err e -> e = EDecodeError.
Proof.
  intros [H|(fs & _ & H)]%bind_err_inv; [by eapply parse_raw_err|].
  eapply fold_fields_err; [|exact H]. intros a x e'. apply sk_step_err.
Qed.
Lemma sk_parse_err bs e : sk_parse bs = Err e -> e = EDecodeError.
Proof. apply sk_merge_err. Qed.

Lemma skd_empty_wf : skd_wf skd_empty.
Proof. by repeat constructor. Qed.

Lemma skd_step_wf m x m' : skd_wf m -> raw_ok x -> skd_step m x = Ok m' -> skd_wf m'.
Proof.
  unfold skd_wf, skd_step. intros Hwf Hx. destruct_and? Hwf.
  repeat case_match; first [intros [= <-]|intros (c & Hc & [= <-])%bind_ok_inv]; simplify_eq; cbn;
  repeat split; try done; try apply u32_lt; try apply i32_range; try (unfold raw_ok in Hx; exact Hx).
Qed.
Lemma skd_merge_wf m bs m' : skd_wf m -> skd_merge m bs = Ok m' -> skd_wf m'.
Proof.
  intros Hm (fs & Hfs & H)%bind_ok_inv. eapply fold_fields_inv; [|exact Hm| |exact H].
  - intros a x a'. apply skd_step_wf.
  - by eapply parse_raw_ok.
Qed.
Lemma skd_parse_wf bs m : skd_parse bs = Ok m -> skd_wf m.
Proof. apply skd_merge_wf, skd_empty_wf. Qed.
Lemma skd_step_err m x e : skd_step m x = Err e -> e = EDecodeError.
Proof.
  unfold skd_step. repeat case_match; try done.
Qed.
Lemma skd_merge_err m bs e : skd_merge m bs = Err e -> e = EDecodeError.
Proof.
  intros [H|(fs & _ & H)]%bind_err_inv; [by eapply parse_raw_err|].
  eapply fold_fields_err; [|exact H]. intros a x e'. apply skd_step_err.
Qed.
Lemma skd_parse_err bs e : skd_parse bs = Err e -> e = EDecodeError.
Proof. apply skd_merge_err. Qed.

Lemma ck_empty_wf : ck_wf ck_empty.
Proof. by repeat constructor. Qed.

Lemma ck_step_wf m x m' : ck_wf m -> raw_ok x -> ck_step m x = Ok m' -> ck_wf m'.
Proof.
  unfold ck_wf, ck_step. intros Hwf Hx. destruct_and? Hwf.
  repeat case_match; first [intros [= <-]|intros (c & Hc & [= <-])%bind_ok_inv]; simplify_eq; cbn;
  repeat split; try done; try apply u32_lt; try apply i32_range; try (unfold raw_ok in Hx; exact Hx).
Qed.
Lemma ck_merge_wf m bs m' : ck_wf m -> ck_merge m bs = Ok m' -> ck_wf m'.
Proof.
  intros Hm (fs & Hfs & H)%bind_ok_inv. eapply fold_fields_inv; [|exact Hm| |exact H].
  - intros a x a'. apply ck_step_wf.
  - by eapply parse_raw_ok.
Qed.
Lemma ck_parse_wf bs m : ck_parse bs = Ok m -> ck_wf m.
Proof. apply ck_merge_wf, ck_empty_wf. Qed.
Lemma ck_step_err m x e : ck_step m x = Err e -> e = EDecodeError.
Proof.
  unfold ck_step. repeat case_match; try done.
Qed.
Lemma ck_merge_err m bs e : ck_merge m bs = Err e -> e = EDecodeError.
Proof.
  intros [H|(fs & _ & H)]%bind_err_inv; [by eapply parse_raw_err|].
  eapply fold_fields_err; [|exact H]. intros a x e'. apply ck_step_err.
Qed.
Lemma ck_parse_err bs e : ck_parse bs = Err e -> e = EDecodeError.
Proof. apply ck_merge_err. Qed.

Lemma mk_empty_wf : mk_wf mk_empty.
Proof. by repeat constructor. Qed.

Lemma mk_step_wf m x m' : mk_wf m -> raw_ok x -> mk_step m x = Ok m' -> mk_wf m'.
Proof.
  unfold mk_wf, mk_step. intros Hwf Hx. destruct_and? Hwf.
  repeat case_match; first [intros [= <-]|intros (c & Hc & [= <-])%bind_ok_inv]; simplify_eq; cbn;
  repeat split; try done; try apply u32_lt; try apply i32_range; try (unfold raw_ok in Hx; exact Hx).
Qed.
Lemma mk_merge_wf m bs m' : mk_wf m -> mk_merge m bs = Ok m' -> mk_wf m'.
Proof.
  intros Hm (fs & Hfs & H)%bind_ok_inv. eapply fold_fields_inv; [|exact Hm| |exact H].
  - intros a x a'. apply mk_step_wf.
  - by eapply parse_raw_ok.
Qed.
Lemma mk_parse_wf bs m : mk_parse bs = Ok m -> mk_wf m.
Proof. apply mk_merge_wf, mk_empty_wf. Qed.
Lemma mk_step_err m x e : mk_step m x = Err e -> e = EDecodeError.
Proof.
  unfold mk_step. repeat case_match; try done.
Qed.
Lemma mk_merge_err m bs e : mk_merge m bs = Err e -> e = EDecodeError.
Proof.
  intros [H|(fs & _ & H)]%bind_err_inv; [by eapply parse_raw_err|].
  eapply fold_fields_err; [|exact H]. intros a x e'. apply mk_step_err.
Qed.
Lemma mk_parse_err bs e : mk_parse bs = Err e -> e = EDecodeError.
Proof. apply mk_merge_err. Qed.

Lemma ch_empty_wf : ch_wf ch_empty.
Proof. by repeat constructor. Qed.

Lemma ch_step_wf m x m' : ch_wf m -> raw_ok x -> ch_step m x = Ok m' -> ch_wf m'.
Proof.
  unfold ch_wf, ch_step. intros Hwf Hx. destruct_and? Hwf.
  repeat case_match; first [intros [= <-]|intros (c & Hc & [= <-])%bind_ok_inv]; simplify_eq; cbn;
  repeat split; try done; try apply u32_lt; try apply i32_range; try (unfold raw_ok in Hx; exact Hx);
  try (eapply ck_merge_wf; [|exact Hc]; first [exact ck_empty_wf | match goal with H : wfM ck_wf ?o |- _ => destruct o; [exact H|exact ck_empty_wf] end]);
  try (apply Forall_app; split; [done|constructor; [eapply ck_merge_wf; [|exact Hc]; exact ck_empty_wf|done]]);
  try (eapply mk_merge_wf; [|exact Hc]; first [exact mk_empty_wf | match goal with H : wfM mk_wf ?o |- _ => destruct o; [exact H|exact mk_empty_wf] end]);
  try (apply Forall_app; split; [done|constructor; [eapply mk_merge_wf; [|exact Hc]; exact mk_empty_wf|done]]).
Qed.
Lemma ch_merge_wf m bs m' : ch_wf m -> ch_merge m bs = Ok m' -> ch_wf m'.
Proof.
  intros Hm (fs & Hfs & H)%bind_ok_inv. eapply fold_fields_inv; [|exact Hm| |exact H].
  - intros a x a'. apply ch_step_wf.
  - by eapply parse_raw_ok.
Qed.
Lemma ch_parse_wf bs m : ch_parse bs = Ok m -> ch_wf m.
Proof. apply ch_merge_wf, ch_empty_wf. Qed.
Lemma ch_step_err m x e : ch_step m x = Err e -> e = EDecodeError.
Proof.
  unfold ch_step. repeat case_match; try done.
  all: try (intros [H'|(c & _ & [=])]%bind_err_inv; by eapply ck_merge_err).
  all: try (intros [H'|(c & _ & [=])]%bind_err_inv; by eapply mk_merge_err).
Qed.
Lemma ch_merge_err m bs e : ch_merge m bs = Err e -> e = EDecodeError.
Proof.
  intros [H|(fs & _ & H)]%bind_err_inv; [by eapply parse_raw_err|].
  eapply fold_fields_err; [|exact H]. intros a x e'. apply ch_step_err.
Qed.
Lemma ch_parse_err bs e : ch_parse bs = Err e -> e = EDecodeError.
Proof. apply ch_merge_err. Qed.

Lemma px_empty_wf : px_wf px_empty.
Proof. by repeat constructor. Qed.

Lemma px_step_wf m x m' : px_wf m -> raw_ok x -> px_step m x = Ok m' -> px_wf m'.
Proof.
  unfold px_wf, px_step. intros Hwf Hx. destruct_and? Hwf.
  repeat case_match; first [intros [= <-]|intros (c & Hc & [= <-])%bind_ok_inv]; simplify_eq; cbn;
  repeat split; try done; try apply u32_lt; try apply i32_range; try (unfold raw_ok in Hx; exact Hx).
Qed.
Lemma px_merge_wf m bs m' : px_wf m -> px_merge m bs = Ok m' -> px_wf m'.
Proof.
  intros Hm (fs & Hfs & H)%bind_ok_inv. eapply fold_fields_inv; [|exact Hm| |exact H].
  - intros a x a'. apply px_step_wf.
  - by eapply parse_raw_ok.
Qed.
Lemma px_parse_wf bs m : px_parse bs = Ok m -> px_wf m.
Proof. apply px_merge_wf, px_empty_wf. Qed.
Lemma px_step_err m x e : px_step m x = Err e -> e = EDecodeError.
Proof.
  unfold px_step. repeat case_match; try done.
Qed.
Lemma px_merge_err m bs e : px_merge m bs = Err e -> e = EDecodeError.
Proof.
  intros [H|(fs & _ & H)]%bind_err_inv; [by eapply parse_raw_err|].
  eapply fold_fields_err; [|exact H]. intros a x e'. apply px_step_err.
Qed.
Lemma px_parse_err bs e : px_parse bs = Err e -> e = EDecodeError.
Proof. apply px_merge_err. Qed.

Lemma pp_empty_wf : pp_wf pp_empty.
Proof. by repeat constructor. Qed.

Lemma pp_step_wf m x m' : pp_wf m -> raw_ok x -> pp_step m x = Ok m' -> pp_wf m'.
Proof.
  unfold pp_wf, pp_step. intros Hwf Hx. destruct_and? Hwf.
  repeat case_match; first [intros [= <-]|intros (c & Hc & [= <-])%bind_ok_inv]; simplify_eq; cbn;
  repeat split; try done; try apply u32_lt; try apply i32_range; try (unfold raw_ok in Hx; exact Hx).
Qed.
Lemma pp_merge_wf m bs m' : pp_wf m -> pp_merge m bs = Ok m' -> pp_wf m'.
Proof.
  intros Hm (fs & Hfs & H)%bind_ok_inv. eapply fold_fields_inv; [|exact Hm| |exact H].
  - intros a x a'. apply pp_step_wf.
  - by eapply parse_raw_ok.
Qed.
Lemma pp_parse_wf bs m : pp_parse bs = Ok m -> pp_wf m.
Proof. apply pp_merge_wf, pp_empty_wf. Qed.
Lemma pp_step_err m x e : pp_step m x = Err e -> e = EDecodeError.
Proof.
  unfold pp_step. repeat case_match; try done.
Qed.
Lemma pp_merge_err m bs e : pp_merge m bs = Err e -> e = EDecodeError.
Proof.
  intros [H|(fs & _ & H)]%bind_err_inv; [by eapply parse_raw_err|].
  eapply fold_fields_err; [|exact H]. intros a x e'. apply pp_step_err.
Qed.
Lemma pp_parse_err bs e : pp_parse bs = Err e -> e = EDecodeError.
Proof. apply pp_merge_err. Qed.

Lemma ss_empty_wf : ss_wf ss_empty.
Proof. by repeat constructor. Qed.

Lemma ss_step_wf m x m' : ss_wf m -> raw_ok x -> ss_step m x = Ok m' -> ss_wf m'.
Proof.
  unfold ss_wf, ss_step. intros Hwf Hx. destruct_and? Hwf.
  repeat case_match; first [intros [= <-]|intros (c & Hc & [= <-])%bind_ok_inv]; simplify_eq; cbn;
  repeat split; try done; try apply u32_lt; try apply i32_range; try (unfold raw_ok in Hx; exact Hx);
  try (eapply ch_merge_wf; [|exact Hc]; first [exact ch_empty_wf | match goal with H : wfM ch_wf ?o |- _ => destruct o; [exact H|exact ch_empty_wf] end]);
  try (apply Forall_app; split; [done|constructor; [eapply ch_merge_wf; [|exact Hc]; exact ch_empty_wf|done]]);
  try (eapply pp_merge_wf; [|exact Hc]; first [exact pp_empty_wf | match goal with H : wfM pp_wf ?o |- _ => destruct o; [exact H|exact pp_empty_wf] end]);
  try (apply Forall_app; split; [done|constructor; [eapply pp_merge_wf; [|exact Hc]; exact pp_empty_wf|done]]);
  try (eapply px_merge_wf; [|exact Hc]; first [exact px_empty_wf | match goal with H : wfM px_wf ?o |- _ => destruct o; [exact H|exact px_empty_wf] end]);
  try (apply Forall_app; split; [done|constructor; [eapply px_merge_wf; [|exact Hc]; exact px_empty_wf|done]]).
Qed.
Lemma ss_merge_wf m bs m' : ss_wf m -> ss_merge m bs = Ok m' -> ss_wf m'.
Proof.
  intros Hm (fs & Hfs & H)%bind_ok_inv. eapply fold_fields_inv; [|exact Hm| |exact H].
  - intros a x a'. apply ss_step_wf.
  - by eapply parse_raw_ok.
Qed.
Lemma ss_parse_wf bs m : ss_parse bs = Ok m -> ss_wf m.
Proof. apply ss_merge_wf, ss_empty_wf. Qed.
Lemma ss_step_err m x e : ss_step m x = Err e -> e = EDecodeError.
Proof.
  unfold ss_step. repeat case_match; try done.
  all: try (intros [H'|(c & _ & [=])]%bind_err_inv; by eapply ch_merge_err).
  all: try (intros [H'|(c & _ & [=])]%bind_err_inv; by eapply pp_merge_err).
  all: try (intros [H'|(c & _ & [=])]%bind_err_inv; by eapply px_merge_err).
Qed.
Lemma ss_merge_err m bs e : ss_merge m bs = Err e -> e = EDecodeError.
Proof.
  intros [H|(fs & _ & H)]%bind_err_inv; [by eapply parse_raw_err|].
  eapply fold_fields_err; [|exact H]. intros a x e'. apply ss_step_err.
Qed.
Lemma ss_parse_err bs e : ss_parse bs = Err e -> e = EDecodeError.
Proof. apply ss_merge_err. Qed.

Lemma rs_empty_wf : rs_wf rs_empty.
Proof. by repeat constructor. Qed.

Lemma rs_step_wf m x m' : rs_wf m -> raw_ok x -> rs_step m x = Ok m' -> rs_wf m'.
Proof.
  unfold rs_wf, rs_step. intros Hwf Hx. destruct_and? Hwf.
  repeat case_match; first [intros [= <-]|intros (c & Hc & [= <-])%bind_ok_inv]; simplify_eq; cbn;
  repeat split; try done; try apply u32_lt; try apply i32_range; try (unfold raw_ok in Hx; exact Hx);
  try (eapply ss_merge_wf; [|exact Hc]; first [exact ss_empty_wf | match goal with H : wfM ss_wf ?o |- _ => destruct o; [exact H|exact ss_empty_wf] end]);
  try (apply Forall_app; split; [done|constructor; [eapply ss_merge_wf; [|exact Hc]; exact ss_empty_wf|done]]).
Qed.
Lemma rs_merge_wf m bs m' : rs_wf m -> rs_merge m bs = Ok m' -> rs_wf m'.
Proof.
  intros Hm (fs & Hfs & H)%bind_ok_inv. eapply fold_fields_inv; [|exact Hm| |exact H].
  - intros a x a'. apply rs_step_wf.
  - by eapply parse_raw_ok.
Qed.
Lemma rs_parse_wf bs m : rs_parse bs = Ok m -> rs_wf m.
Proof. apply rs_merge_wf, rs_empty_wf. Qed.
Lemma rs_step_err m x e : rs_step m x = Err e -> e = EDecodeError.
Proof.
  unfold rs_step. repeat case_match; try done.
  all: try (intros [H'|(c & _ & [=])]%bind_err_inv; by eapply ss_merge_err).
Qed.
Lemma rs_merge_err m bs e : rs_merge m bs = Err e -> e = EDecodeError.
Proof.
  intros [H|(fs & _ & H)]%bind_err_inv; [by eapply parse_raw_err|].
  eapply fold_fields_err; [|exact H]. intros a x e'. apply rs_step_err.
Qed.
Lemma rs_parse_err bs e : rs_parse bs = Err e -> e = EDecodeError.
Proof. apply rs_merge_err. Qed.

Lemma pr_empty_wf : pr_wf pr_empty.
Proof. by repeat constructor. Qed.

Lemma pr_step_wf m x m' : pr_wf m -> raw_ok x -> pr_step m x = Ok m' -> pr_wf m'.
Proof.
  unfold pr_wf, pr_step. intros Hwf Hx. destruct_and? Hwf.
  repeat case_match; first [intros [= <-]|intros (c & Hc & [= <-])%bind_ok_inv]; simplify_eq; cbn;
  repeat split; try done; try apply u32_lt; try apply i32_range; try (unfold raw_ok in Hx; exact Hx).
Qed.
Lemma pr_merge_wf m bs m' : pr_wf m -> pr_merge m bs = Ok m' -> pr_wf m'.
Proof.
  intros Hm (fs & Hfs & H)%bind_ok_inv. eapply fold_fields_inv; [|exact Hm| |exact H].
  - intros a x a'. apply pr_step_wf.
  - by eapply parse_raw_ok.
Qed.
Lemma pr_parse_wf bs m : pr_parse bs = Ok m -> pr_wf m.
Proof. apply pr_merge_wf, pr_empty_wf. Qed.
Lemma pr_step_err m x e : pr_step m x = Err e -> e = EDecodeError.
Proof.
  unfold pr_step. repeat case_match; try done.
Qed.
Lemma pr_merge_err m bs e : pr_merge m bs = Err e -> e = EDecodeError.
Proof.
  intros [H|(fs & _ & H)]%bind_err_inv; [by eapply parse_raw_err|].
  eapply fold_fields_err; [|exact H]. intros a x e'. apply pr_step_err.
Qed.
Lemma pr_parse_err bs e : pr_parse bs = Err e -> e = EDecodeError.
Proof. apply pr_merge_err. Qed.

Lemma spr_empty_wf : spr_wf spr_empty.
Proof. by repeat constructor. Qed.

Lemma spr_step_wf m x m' : spr_wf m -> raw_ok x -> spr_step m x = Ok m' -> spr_wf m'.
Proof.
  unfold spr_wf, spr_step. intros Hwf Hx. destruct_and? Hwf.
  repeat case_match; first [intros [= <-]|intros (c & Hc & [= <-])%bind_ok_inv]; simplify_eq; cbn;
  repeat split; try done; try apply u32_lt; try apply i32_range; try (unfold raw_ok in Hx; exact Hx).
Qed.
Lemma spr_merge_wf m bs m' : spr_wf m -> spr_merge m bs = Ok m' -> spr_wf m'.
Proof.
  intros Hm (fs & Hfs & H)%bind_ok_inv. eapply fold_fields_inv; [|exact Hm| |exact H].
  - intros a x a'. apply spr_step_wf.
  - by eapply parse_raw_ok.
Qed.
Lemma spr_parse_wf bs m : spr_parse bs = Ok m -> spr_wf m.
Proof. apply spr_merge_wf, spr_empty_wf. Qed.
Lemma spr_step_err m x e : spr_step m x = Err e -> e = EDecodeError.
Proof.
  unfold spr_step. repeat case_match; try done.
Qed.
Lemma spr_merge_err m bs e : spr_merge m bs = Err e -> e = EDecodeError.
Proof.
  intros [H|(fs & _ & H)]%bind_err_inv; [by eapply parse_raw_err|].
  eapply fold_fields_err; [|exact H]. intros a x e'. apply spr_step_err.
Qed.
Lemma spr_parse_err bs e : spr_parse bs = Err e -> e = EDecodeError.
Proof. apply spr_merge_err. Qed.

Lemma ik_empty_wf : ik_wf ik_empty.
Proof. by repeat constructor. Qed.

Lemma ik_step_wf m x m' : ik_wf m -> raw_ok x -> ik_step m x = Ok m' -> ik_wf m'.
Proof.
  unfold ik_wf, ik_step. intros Hwf Hx. destruct_and? Hwf.
  repeat case_match; first [intros [= <-]|intros (c & Hc & [= <-])%bind_ok_inv]; simplify_eq; cbn;
  repeat split; try done; try apply u32_lt; try apply i32_range; try (unfold raw_ok in Hx; exact Hx).
Qed.
Lemma ik_merge_wf m bs m' : ik_wf m -> ik_merge m bs = Ok m' -> ik_wf m'.
Proof.
  intros Hm (fs & Hfs & H)%bind_ok_inv. eapply fold_fields_inv; [|exact Hm| |exact H].
  - intros a x a'. apply ik_step_wf.
  - by eapply parse_raw_ok.
Qed.
Lemma ik_parse_wf bs m : ik_parse bs = Ok m -> ik_wf m.
Proof. apply ik_merge_wf, ik_empty_wf. Qed.
Lemma ik_step_err m x e : ik_step m x = Err e -> e = EDecodeError.
Proof.
  unfold ik_step. repeat case_match; try done.
Qed.
Lemma ik_merge_err m bs e : ik_merge m bs = Err e -> e = EDecodeError.
Proof.
  intros [H|(fs & _ & H)]%bind_err_inv; [by eapply parse_raw_err|].
  eapply fold_fields_err; [|exact H]. intros a x e'. apply ik_step_err.
Qed.
Lemma ik_parse_err bs e : ik_parse bs = Err e -> e = EDecodeError.
Proof. apply ik_merge_err. Qed.

Lemma sck_empty_wf : sck_wf sck_empty.
Proof. by repeat constructor. Qed.

Lemma sck_step_wf m x m' : sck_wf m -> raw_ok x -> sck_step m x = Ok m' -> sck_wf m'.
Proof.
  unfold sck_wf, sck_step. intros Hwf Hx. destruct_and? Hwf.
  repeat case_match; first [intros [= <-]|intros (c & Hc & [= <-])%bind_ok_inv]; simplify_eq; cbn;
  repeat split; try done; try apply u32_lt; try apply i32_range; try (unfold raw_ok in Hx; exact Hx).
Qed.
Lemma sck_merge_wf m bs m' : sck_wf m -> sck_merge m bs = Ok m' -> sck_wf m'.
Proof.
  intros Hm (fs & Hfs & H)%bind_ok_inv. eapply fold_fields_inv; [|exact Hm| |exact H].
  - intros a x a'. apply sck_step_wf.
  - by eapply parse_raw_ok.
Qed.
Lemma sck_parse_wf bs m : sck_parse bs = Ok m -> sck_wf m.
Proof. apply sck_merge_wf, sck_empty_wf. Qed.
Lemma sck_step_err m x e : sck_step m x = Err e -> e = EDecodeError.
Proof.
  unfold sck_step. repeat case_match; try done.
Qed.
Lemma sck_merge_err m bs e : sck_merge m bs = Err e -> e = EDecodeError.
Proof.
  intros [H|(fs & _ & H)]%bind_err_inv; [by eapply parse_raw_err|].
  eapply fold_fields_err; [|exact H]. intros a x e'. apply sck_step_err.
Qed.
Lemma sck_parse_err bs e : sck_parse bs = Err e -> e = EDecodeError.
Proof. apply sck_merge_err. Qed.

Lemma smk_empty_wf : smk_wf smk_empty.
Proof. by repeat constructor. Qed.

Lemma smk_step_wf m x m' : smk_wf m -> raw_ok x -> smk_step m x = Ok m' -> smk_wf m'.
Proof.
  unfold smk_wf, smk_step. intros Hwf Hx. destruct_and? Hwf.
  repeat case_match; first [intros [= <-]|intros (c & Hc & [= <-])%bind_ok_inv]; simplify_eq; cbn;
  repeat split; try done; try apply u32_lt; try apply i32_range; try (unfold raw_ok in Hx; exact Hx).
Qed.
Lemma smk_merge_wf m bs m' : smk_wf m -> smk_merge m bs = Ok m' -> smk_wf m'.
Proof.
  intros Hm (fs & Hfs & H)%bind_ok_inv. eapply fold_fields_inv; [|exact Hm| |exact H].
  - intros a x a'. apply smk_step_wf.
  - by eapply parse_raw_ok.
Qed.
Lemma smk_parse_wf bs m : smk_parse bs = Ok m -> smk_wf m.
Proof. apply smk_merge_wf, smk_empty_wf. Qed.
Lemma smk_step_err m x e : smk_step m x = Err e -> e = EDecodeError.
Proof.
  unfold smk_step. repeat case_match; try done.
Qed.
Lemma smk_merge_err m bs e : smk_merge m bs = Err e -> e = EDecodeError.
Proof.
  intros [H|(fs & _ & H)]%bind_err_inv; [by eapply parse_raw_err|].
  eapply fold_fields_err; [|exact H]. intros a x e'. apply smk_step_err.
Qed.
Lemma smk_parse_err bs e : smk_parse bs = Err e -> e = EDecodeError.
Proof. apply smk_merge_err. Qed.

Lemma ssk_empty_wf : ssk_wf ssk_empty.
Proof. by repeat constructor. Qed.

Lemma ssk_step_wf m x m' : ssk_wf m -> raw_ok x -> ssk_step m x = Ok m' -> ssk_wf m'.
Proof.
  unfold ssk_wf, ssk_step. intros Hwf Hx. destruct_and? Hwf.
  repeat case_match; first [intros [= <-]|intros (c & Hc & [= <-])%bind_ok_inv]; simplify_eq; cbn;
  repeat split; try done; try apply u32_lt; try apply i32_range; try (unfold raw_ok in Hx; exact Hx).
Qed.
Lemma ssk_merge_wf m bs m' : ssk_wf m -> ssk_merge m bs = Ok m' -> ssk_wf m'.
Proof.
  intros Hm (fs & Hfs & H)%bind_ok_inv. eapply fold_fields_inv; [|exact Hm| |exact H].
  - intros a x a'. apply ssk_step_wf.
  - by eapply parse_raw_ok.
Qed.
Lemma ssk_parse_wf bs m : ssk_parse bs = Ok m -> ssk_wf m.
Proof. apply ssk_merge_wf, ssk_empty_wf. Qed.
Lemma ssk_step_err m x e : ssk_step m x = Err e -> e = EDecodeError.
Proof.
  unfold ssk_step. repeat case_match; try done.
Qed.
Lemma ssk_merge_err m bs e : ssk_merge m bs = Err e -> e = EDecodeError.
Proof.
  intros [H|(fs & _ & H)]%bind_err_inv; [by eapply parse_raw_err|].
  eapply fold_fields_err; [|exact H]. intros a x e'. apply ssk_step_err.
Qed.
Lemma ssk_parse_err bs e : ssk_parse bs = Err e -> e = EDecodeError.
Proof. apply ssk_merge_err. Qed.

Lemma st_empty_wf : st_wf st_empty.
Proof. by repeat constructor. Qed.

Lemma st_step_wf m x m' : st_wf m -> raw_ok x -> st_step m x = Ok m' -> st_wf m'.
Proof.
  unfold st_wf, st_step. intros Hwf Hx. destruct_and? Hwf.
  repeat case_match; first [intros [= <-]|intros (c & Hc & [= <-])%bind_ok_inv]; simplify_eq; cbn;
  repeat split; try done; try apply u32_lt; try apply i32_range; try (unfold raw_ok in Hx; exact Hx);
  try (eapply sck_merge_wf; [|exact Hc]; first [exact sck_empty_wf | match goal with H : wfM sck_wf ?o |- _ => destruct o; [exact H|exact sck_empty_wf] end]);
  try (apply Forall_app; split; [done|constructor; [eapply sck_merge_wf; [|exact Hc]; exact sck_empty_wf|done]]);
  try (eapply smk_merge_wf; [|exact Hc]; first [exact smk_empty_wf | match goal with H : wfM smk_wf ?o |- _ => destruct o; [exact H|exact smk_empty_wf] end]);
  try (apply Forall_app; split; [done|constructor; [eapply smk_merge_wf; [|exact Hc]; exact smk_empty_wf|done]]);
  try (eapply ssk_merge_wf; [|exact Hc]; first [exact ssk_empty_wf | match goal with H : wfM ssk_wf ?o |- _ => destruct o; [exact H|exact ssk_empty_wf] end]);
  try (apply Forall_app; split; [done|constructor; [eapply ssk_merge_wf; [|exact Hc]; exact ssk_empty_wf|done]]).
Qed.
Lemma st_merge_wf m bs m' : st_wf m -> st_merge m bs = Ok m' -> st_wf m'.
Proof.
  intros Hm (fs & Hfs & H)%bind_ok_inv. eapply fold_fields_inv; [|exact Hm| |exact H].
  - intros a x a'. apply st_step_wf.
  - by eapply parse_raw_ok.
Qed.
Lemma st_parse_wf bs m : st_parse bs = Ok m -> st_wf m.
Proof. apply st_merge_wf, st_empty_wf. Qed.
Lemma st_step_err m x e : st_step m x = Err e -> e = EDecodeError.
Proof.
  unfold st_step. repeat case_match; try done.
  all: try (intros [H'|(c & _ & [=])]%bind_err_inv; by eapply sck_merge_err).
  all: try (intros [H'|(c & _ & [=])]%bind_err_inv; by eapply smk_merge_err).
  all: try (intros [H'|(c & _ & [=])]%bind_err_inv; by eapply ssk_merge_err).
Qed.
Lemma st_merge_err m bs e : st_merge m bs = Err e -> e = EDecodeError.
Proof.
  intros [H|(fs & _ & H)]%bind_err_inv; [by eapply parse_raw_err|].
  eapply fold_fields_err; [|exact H]. intros a x e'. apply st_step_err.
Qed.
Lemma st_parse_err bs e : st_parse bs = Err e -> e = EDecodeError.
Proof. apply st_merge_err. Qed.

Lemma sr_empty_wf : sr_wf sr_empty.
Proof. by repeat constructor. Qed.

Lemma sr_step_wf m x m' : sr_wf m -> raw_ok x -> sr_step m x = Ok m' -> sr_wf m'.
Proof.
  unfold sr_wf, sr_step. intros Hwf Hx. destruct_and? Hwf.
  repeat case_match; first [intros [= <-]|intros (c & Hc & [= <-])%bind_ok_inv]; simplify_eq; cbn;
  repeat split; try done; try apply u32_lt; try apply i32_range; try (unfold raw_ok in Hx; exact Hx);
  try (eapply st_merge_wf; [|exact Hc]; first [exact st_empty_wf | match goal with H : wfM st_wf ?o |- _ => destruct o; [exact H|exact st_empty_wf] end]);
  try (apply Forall_app; split; [done|constructor; [eapply st_merge_wf; [|exact Hc]; exact st_empty_wf|done]]).
Qed.
Lemma sr_merge_wf m bs m' : sr_wf m -> sr_merge m bs = Ok m' -> sr_wf m'.
Proof.
  intros Hm (fs & Hfs & H)%bind_ok_inv. eapply fold_fields_inv; [|exact Hm| |exact H].
  - intros a x a'. apply sr_step_wf.
  - by eapply parse_raw_ok.
Qed.
Lemma sr_parse_wf bs m : sr_parse bs = Ok m -> sr_wf m.
Proof. apply sr_merge_wf, sr_empty_wf. Qed.
Lemma sr_step_err m x e : sr_step m x = Err e -> e = EDecodeError.
Proof.
  unfold sr_step. repeat case_match; try done.
  all: try (intros [H'|(c & _ & [=])]%bind_err_inv; by eapply st_merge_err).
Qed.
Lemma sr_merge_err m bs e : sr_merge m bs = Err e -> e = EDecodeError.
Proof.
  intros [H|(fs & _ & H)]%bind_err_inv; [by eapply parse_raw_err|].
  eapply fold_fields_err; [|exact H]. intros a x e'. apply sr_step_err.
Qed.
Lemma sr_parse_err bs e : sr_parse bs = Err e -> e = EDecodeError.
Proof. apply sr_merge_err. Qed.
