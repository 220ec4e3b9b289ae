(** * C82: a device reboots exactly if its owner asked for that
    client-linuxapp/src/serviceinfo.rs:449-828, main.rs:1009-1049, 1141-1235 *)
From Verif Require Import Base BaseFacts CborModel ValueModel Text TypesModel VoucherModel KexModel RvModel MsgModel SessionModel HttpClientModel RvServerModel SiModel DevSiModel SiSpec SiProofs OwnerModel To0Model ClientModel ClientSpec ClientProofs ClientProofs2 RebootSpec.
From Coq Require Import ZifyBool ZifyNat ZifyN.
Local Open Scope N_scope.
Local Opaque dec_top from_slice any_value.

Definition flag (b : bool) (x : sientry) : bool :=
  match x with (Reboot, key, VBool v) => if text_eqb key (txt "reboot") then v else b | _ => b end.
Lemma flag_asked l : fold_left flag l false = true <-> exists pre post, l = pre ++ (Reboot, txt "reboot", VBool true) :: post /\ ~ In (Reboot, txt "reboot", VBool false) post.
Proof.
  assert (K : forall post, ~ In (Reboot, txt "reboot", VBool false) post -> fold_left flag post true = true).
  { induction post as [|x post IH]; intros N; [reflexivity|]. cbn [fold_left]. assert (F : flag true x = true).
    { destruct x as [[[] key] []]; cbn [flag]; try reflexivity. destruct (text_eqb_spec key (txt "reboot")) as [->|]; [|reflexivity]. destruct b; [reflexivity|]. exfalso. apply N. left. reflexivity. }
    rewrite F. apply IH. intros I. apply N. right. exact I. }
  split.
  - induction l as [|x l IH] using rev_ind; [discriminate|]. rewrite fold_left_app. cbn [fold_left]. intros F.
    assert (C : flag (fold_left flag l false) x = fold_left flag l false /\ x <> (Reboot, txt "reboot", VBool false) \/ x = (Reboot, txt "reboot", VBool true)).
    { destruct x as [[[] key] []]; cbn [flag] in *; try (left; split; [reflexivity|discriminate]).
      destruct (text_eqb_spec key (txt "reboot")) as [->|NE]; [subst b; auto|]. left. split; [reflexivity|]. intros X. inversion X. contradiction. }
    destruct C as [[C N]| ->].
    + rewrite C in F. destruct (IH F) as (pre & post & -> & NI). exists pre, (post ++ [x]). split; [rewrite <- app_assoc; reflexivity|]. intros I. apply in_app_or in I. destruct I as [I|[I|[]]]; [exact (NI I)|exact (N I)].
    + exists l, []. split; [reflexivity|intros []].
  - intros (pre & post & -> & N). rewrite fold_left_app. cbn [fold_left]. change (flag (fold_left flag pre false) (Reboot, txt "reboot", VBool true)) with true. apply K. exact N.
Qed.

Lemma step_flag c w p s x : snd (step c w p s x) = Ok tt -> d_reboot (fst (step c w p s x)) = flag (d_reboot s) x.
Proof.
  destruct x as [[m key] v]. unfold step. cbv zeta. set (s1 := noted s (Read (m, key, v))). change (d_reboot s) with (d_reboot s1).
  destruct (text_eqb_spec key (txt "active")) as [->|NA].
  { assert (F : flag (d_reboot s1) (m, txt "active", v) = d_reboot s1) by (destruct m, v; reflexivity). rewrite F. destruct v; cbn [v_bool need bail go fst snd]; try discriminate. reflexivity. }
  destruct (existsb (simod_eqb m) (d_active s1)); cbn [negb]; [|discriminate].
  assert (W : forall r, inside m s1 r -> m <> Reboot -> d_reboot (fst r) = flag (d_reboot s1) (m, key, v)).
  { intros r (_ & -> & _) N. destruct m; try reflexivity. contradiction. }
  destruct m; intros OK.
  - apply W; [apply within_refl|discriminate].
  - apply W; [apply step_cmd_within|discriminate].
  - apply W; [apply step_ssh_within|discriminate].
  - apply W; [apply step_bin_within|discriminate].
  - apply W; [apply step_disk_within|discriminate].
  - destruct (text_eqb_spec key (txt "reboot")) as [->|NR].
    + destruct v; try discriminate OK. reflexivity.
    + cbn [go fst]. destruct v; cbn [flag]; try reflexivity. destruct (text_eqb_spec key (txt "reboot")); [contradiction|reflexivity].
  - apply W; [apply step_rhsm_within|discriminate].
  - apply W; [apply within_refl|discriminate].
Qed.
Lemma steps_flag c w p l : forall s s', steps c w p s l = (s', Ok tt) -> d_reboot s' = fold_left flag l (d_reboot s).
Proof.
  induction l as [|x l IH]; intros s s' E; cbn [steps fold_left] in *; [inversion E; reflexivity|].
  pose proof (step_flag c w p s x) as F. destruct (step c w p s x) as [s1 [[]| |]]; cbn [andthen fst snd] in *; try discriminate. rewrite <- (F eq_refl). exact (IH _ _ E).
Qed.
Lemma process_flag c w p l out s : process c w p l out = (s, Ok tt) -> (d_reboot s = true <-> asks_reboot l).
Proof.
  unfold process. destruct (steps c w p (dst0 out) (si_iter l)) as [s1 [[]| |]] eqn:E; cbn [andthen]; try discriminate. apply steps_flag in E. cbn [dst0 d_reboot] in E.
  pose proof (finish_ssh_within w s1) as (_ & R1 & _). destruct (finish_ssh w s1) as [s2 [[]| |]]; cbn [andthen fst] in *; try discriminate.
  pose proof (finish_rhsm_within w s2) as (_ & R2 & _). intros F. rewrite F in R2. cbn [fst] in R2. rewrite R2, R1, E. apply flag_asked.
Qed.

Section device.
Context (A : aead) (c : crypto) (chk : bool) (ko : kex_ops) (avail : bool) (prefix : option str) (wo : world).
Lemma loop_told keys : agreed_keys ko avail keys -> forall n out rb s s' r, hc_keys (s_hc s) = keys -> info_loop A c avail prefix wo n out rb s = (s', Ok r) ->
  exists ls, told A ko avail wo (s_hist s) ls (s_hist s') /\ (r = true <-> rb = true \/ Exists asks_reboot ls).
Proof.
  intros AK. induction n as [|n IH]; intros out rb s s' r K M; cbn [info_loop] in M; [discriminate|].
  apply dbind_ok in M. destruct M as (s1 & b & M1 & M). apply ask_ok in M1. destruct M1 as (bd & w & ct & EB & H & U & T & E & CB & K2 & D). rewrite K in *. rewrite K2 in D.
  pose proof (agreed_says A ko avail _ _ _ AK D) as SY.
  apply dbind_ok in M. destruct M as (s2 & [[more dn] l] & M2 & M). apply lift_ok in M2. destruct M2 as [-> RO]. destruct dn.
  - apply ret_ok in M. destruct M as [-> ->]. exists []. rewrite H. split; [eapply told_all; eassumption|]. split; [auto|]. intros [X|X]; [exact X|inversion X].
  - destruct more; [discriminate|]. apply dbind_ok in M. destruct M as (s3 & [r3 out'] & M3 & M).
    unfold handle_info in M3. destruct (process c _ prefix l []) as [d o] eqn:P. destruct o as [[]| |]; cbn [bind] in M3; inversion M3; subst; clear M3.
    apply process_flag in P. edestruct IH as (ls & TO & IFF); [|exact M|]; [exact K2|]. cbn [s_hist] in TO. exists (l :: ls). rewrite H in TO.
    split; [eapply told_more; eassumption|]. rewrite IFF. rewrite Exists_cons, <- P. destruct rb; intuition congruence.
Qed.

(** The device's flag is set exactly if one of the messages of the session that ended well asks for a reboot. *)
Definition told_session (m : deactivation) (h : list devent) (b : bool) : Prop :=
  exists h1 ls h2 url w, told A ko avail wo h1 ls h2 /\ h = h2 ++ TMark true :: put_away m ++ [TWire url w] /\ wr_type w = 70 /\ (b = true <-> Exists asks_reboot ls).
Lemma to2_told m dc to1d s s' b : hc_keys (s_hc s) = unencrypted -> to2 A c chk ko avail prefix wo m dc to1d s = (s', Ok b) -> told_session m (s_hist s') b.
Proof.
  intros K M. unfold to2 in M.
  apply dbind_ok in M. destruct M as (sa & n5 & Ma & M). inversion Ma; subst sa n5; clear Ma.
  apply dbind_ok in M. destruct M as (s1 & [tok p] & M1 & M). apply dbind_ok in M. destruct M as (s2 & n6 & M2 & M).
  apply dbind_ok in M. destruct M as (s3 & p' & M3 & M). clear M1 M2 M3.
  apply dbind_ok in M. destruct M as (s4 & [k keys] & M4 & M). apply reporting_ok, kd_ok in M4. destruct M4 as (-> & ni & raw & DK & EK). cbn [fst snd] in DK, EK.
  assert (AK : agreed_keys ko avail keys) by (exists k, (ph_kex p'), ni, raw; auto).
  apply dbind_ok in M. destruct M as (sb & n7 & Mb & M). inversion Mb; subst sb n7; clear Mb.
  apply dbind_ok in M. destruct M as (s5 & [] & M5 & M). apply reporting_ok in M5. pose proof (prove_ok _ _ _ _ _ _ _ _ _ _ _ _ _ M5) as K5. clear M5.
  apply dbind_ok in M. destruct M as (s6 & [] & M6 & M). apply reporting_ok in M6. assert (K6 : hc_keys (s_hc s6) = keys) by (rewrite <- K5; eapply siready_ok; exact M6). clear M6.
  apply dbind_ok in M. destruct M as (s7 & rb & M7 & M). apply reporting_ok in M7.
  unfold perform_info in M7. apply dbind_ok in M7. destruct M7 as (s7' & out & M7' & M7). apply lift_ok in M7'. destruct M7' as [-> _].
  destruct (loop_told _ AK _ _ _ _ _ _ K6 M7) as (ls & TO & IFF).
  apply dbind_ok in M. destruct M as (s8 & [] & M8 & M). apply reporting_ok in M8. apply io_ok in M8. destruct M8 as (H8 & U8 & C8).
  apply dbind_ok in M. destruct M as (s9 & [] & M9 & M). apply reporting_ok, deactivate_ok in M9. destruct M9 as (H9 & U9 & C9).
  apply dbind_ok in M. destruct M as (s10 & [] & M10 & M). apply reporting_ok, done_ok in M10. destruct M10 as (w & ct & pt & H10 & T & CB & D & RD).
  apply ret_ok in M. destruct M as [-> ->].
  exists (s_hist s6), ls, (s_hist s7), (s_url s9), w. split; [exact TO|]. split; [rewrite H10, H9, H8, <- !app_assoc; reflexivity|]. split; [exact T|]. rewrite IFF. intuition congruence.
Qed.
Context (show_ip : bytes -> str).
Lemma owners_told m dc to1d : forall urls s s' b, try_owners A c chk ko avail prefix wo m dc to1d urls s = (s', Ok (Some b)) -> told_session m (s_hist s') b.
Proof.
  induction urls as [|u r IH]; intros s s' b M; cbn [try_owners] in M; [inversion M|]. destruct (perform_to2 A c chk ko avail prefix wo m dc u to1d s) as [s1 [x|e|w]] eqn:E.
  - inversion M; subst. unfold perform_to2, with_client in E. eapply to2_told; [|exact E]. reflexivity.
  - eapply IH. exact M.
  - discriminate.
Qed.
Lemma directives_told m dc : forall l s s' b, try_directives A c chk ko avail show_ip prefix wo m dc l s = (s', Ok (Some b)) -> told_session m (s_hist s') b.
Proof.
  induction l as [|x r IH]; intros s s' b M; cbn [try_directives] in M; [inversion M|]. destruct (get_client_list show_ip x) as [urls|]; [|eapply IH; exact M].
  destruct (get_to1d A c chk avail wo dc urls s) as [s1 [t|e|w]]; [|eapply IH; exact M|discriminate].
  destruct (cose_get_payload_unverified _ t) as [pl|e|w]; [|eapply IH; exact M|discriminate].
  destruct (try_owners A c chk ko avail prefix wo m dc t (get_to2_urls show_ip (t1_addrs pl)) s1) as [s2 [[y|]|e|w]] eqn:E; try discriminate.
  - inversion M; subst. eapply owners_told. exact E.
  - eapply IH. exact M.
Qed.
Lemma rounds_told m dc l : forall n s s' b, try_rounds A c chk ko avail show_ip prefix wo m dc l n s = (s', Ok (Some b)) -> told_session m (s_hist s') b.
Proof.
  induction n as [|n IH]; intros s s' b M; cbn [try_rounds] in M; [inversion M|].
  destruct (try_directives A c chk ko avail show_ip prefix wo m dc l s) as [s1 [[y|]|e|w]] eqn:E; try discriminate.
  - inversion M; subst. eapply directives_told. exact E.
  - eapply IH. exact M.
Qed.
(** Whoever the device talks to, and whatever they say: the program ends with a reboot exactly if one of the owner's messages, in
    the session that the device completed, asked for it. *)
Theorem C82_reboots : forall allow d n h b, main A c chk ko avail show_ip prefix wo allow d n = (h, Onboarded b) ->
  exists h1 ls h2 url w, told A ko avail wo h1 ls h2 /\ h = h2 ++ TMark true :: put_away (dd_method d) ++ [TWire url w] /\ wr_type w = 70 /\ (b = true <-> Exists asks_reboot ls).
Proof.
  intros allow d n h b. unfold main. destruct (negb avail && negb allow); [discriminate|]. destruct (dd_marker d); [discriminate|].
  destruct (dd_cred d) as [| |dc]; try discriminate. destruct (negb (dc_active dc)); [discriminate|]. destruct (negb (dc_version dc =? V1_1)); [discriminate|].
  destruct (to_interpreted (dc_rv dc) Device) as [[|i l]| |]; try discriminate.
  destruct (try_rounds _ _ _ _ _ _ _ _ _ _ _ _ _) as [s r] eqn:T. destruct r as [[b'|]| |]; intros E; inversion E; subst. exact (rounds_told _ _ _ _ _ _ _ T).
Qed.
End device.

(** ** Cases: one device is asked to reboot; one is asked and then told not to, in the same message *)
From Verif Require Import ToyCrypto ToySession P_Voucher P_Kex P_To0 ClientToy.
Lemma cl_reboots : cl_run = (fst cl_run, Onboarded true). Proof. rewrite <- cl_exit. apply surjective_pairing. Qed.
Example C82_case : exists h1 ls h2 url w, told toy_aead toy_kex true (cl_world [] ex_exts) h1 ls h2 /\ fst cl_run = h2 ++ TMark true :: [TErase true; TOff true] ++ [TWire url w] /\ Exists asks_reboot ls.
Proof.
  pose proof cl_reboots as R. unfold cl_run, cl_main in R. apply C82_reboots in R. destruct R as (h1 & ls & h2 & url & w & TO & H & _ & IFF).
  exists h1, ls, h2, url, w. split; [exact TO|]. split; [exact H|]. apply IFF. reflexivity.
Qed.
Definition rb_list (l : list bool) : silist := fold_left (fun a b => si_add a Reboot (txt "reboot") (VBool b)) l (si_add [] Reboot (txt "active") (VBool true)).
Example C82_asked : asks_reboot (rb_list [false; true]) /\ ~ asks_reboot (rb_list [true; false]) /\ ~ asks_reboot (rb_list []).
Proof.
  assert (F : forall l b, fold_left flag (si_iter l) false = b -> if b then asks_reboot l else ~ asks_reboot l).
  { intros l [|] E; [apply flag_asked; exact E|]. intros X. apply flag_asked in X. congruence. }
  split; [|split]; [apply (F _ true)|apply (F _ false)|apply (F _ false)]; vm_compute; reflexivity.
Qed.

Print Assumptions C82_reboots.
