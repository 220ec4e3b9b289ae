(** Lemmas for P_Rv.v. *)
From Verif Require Import Base BaseFacts ValueModel TypesModel Text RvModel RvSpec.
From Coq Require Import ZifyBool ZifyNat ZifyN.
Local Open Scope N_scope.
Local Opaque dec_top.

Lemma given_snoc var d i : given var (d ++ [i]) = given var d ++ (if fst i =? var then [snd i] else []).
Proof.
  unfold given. rewrite filter_app, map_app. cbn [filter]. destruct (fst i =? var); reflexivity.
Qed.
Lemma last_same {A} (f : cval -> option A) var d raw v x :
  dec_top raw = Some v -> f v = Some x -> last_given f var (d ++ [(var, raw)]) (Some x).
Proof.
  intros D F. unfold last_given. rewrite given_snoc. cbn [fst snd]. rewrite N.eqb_refl, rev_app_distr. cbn. eauto.
Qed.
Lemma last_other {A} (f : cval -> option A) var d i o :
  (fst i =? var) = false -> last_given f var d o -> last_given f var (d ++ [i]) o.
Proof. intros E H. unfold last_given. rewrite given_snoc, E, app_nil_r. exact H. Qed.
Lemma given_other var d i : (fst i =? var) = false -> given var (d ++ [i]) = given var d.
Proof. intros E. rewrite given_snoc, E, app_nil_r. reflexivity. Qed.
Lemma given_some var d raw : given var (d ++ [(var, raw)]) <> [].
Proof. rewrite given_snoc. cbn [fst snd]. rewrite N.eqb_refl. destruct (given var d); discriminate. Qed.

Record inv (sd : side) (d : rv_directive) (a : rv_acc) : Prop := {
  iv_vis : forall i, In i d -> not_for sd i = false;
  iv_read : Forall (readable sd) d;
  iv_ips : Forall2 (fun raw ip => exists v, dec_top raw = Some v /\ as_ip v = Some ip) (given RV_IPAddress d) (ac_ips a);
  iv_dns : last_given as_string RV_Dns d (ac_dns a);
  iv_port : last_given as_u32 (port_var sd) d (ac_port a);
  iv_sch : device_reads sd as_hash RV_ServerCertHash d (ac_sch a);
  iv_cch : device_reads sd as_hash RV_CaCertHash d (ac_cch a);
  iv_ui : ac_ui a = true <-> sd = Device /\ given RV_UserInput d <> [];
  iv_ssid : device_reads sd as_string RV_WifiSsid d (ac_ssid a);
  iv_pw : device_reads sd as_string RV_WifiPw d (ac_pw a);
  iv_med : device_reads sd as_u8 RV_Medium d (ac_med a);
  iv_proto : exists o, last_given as_protocol RV_Protocol d o /\ ac_proto a = match o with Some p => p | None => PR_Tls end;
  iv_delay : exists o, last_given as_u32 RV_Delaysec d o /\ ac_delay a = match o with Some p => p | None => 0 end;
  iv_bypass : ac_bypass a = true <-> sd = Device /\ given RV_Bypass d <> []
}.

Lemma inv0 sd : inv sd [] acc0.
Proof.
  constructor; cbn; try reflexivity; try constructor.
  - intros i Hi; destruct Hi.
  - destruct sd; reflexivity.
  - destruct sd; reflexivity.
  - discriminate.
  - intros [_ H]; congruence.
  - destruct sd; reflexivity.
  - destruct sd; reflexivity.
  - destruct sd; reflexivity.
  - exists None. split; reflexivity.
  - exists None. split; reflexivity.
  - discriminate.
  - intros [_ H]; congruence.
Qed.

Ltac splitvar var H :=
  match type of H with
  | context[if (var =? ?k) then _ else _] => destruct (N.eqb_spec var k) as [->|?]; [|splitvar var H]
  | _ => idtac
  end.

Lemma dev_other {A} sd (f : cval -> option A) var d i o :
  (fst i =? var) = false -> device_reads sd f var d o -> device_reads sd f var (d ++ [i]) o.
Proof. destruct sd; cbn; [apply last_other|auto]. Qed.

Lemma iff_given_other sd (b : bool) var d i : (fst i =? var) = false ->
  (b = true <-> sd = Device /\ given var d <> []) -> (b = true <-> sd = Device /\ given var (d ++ [i]) <> []).
Proof. intros E H. rewrite given_other by exact E. exact H. Qed.

Lemma ex_other {A} (f : cval -> option A) var d i (P : option A -> Prop) :
  (fst i =? var) = false -> (exists o, last_given f var d o /\ P o) -> exists o, last_given f var (d ++ [i]) o /\ P o.
Proof. intros E (o & L & H). exists o. split; [apply last_other; auto|exact H]. Qed.

Lemma inv_step sd d a var raw a' : var <= 14 -> inv sd d a -> rv_step sd a (var, raw) = Ok (Some a') -> inv sd (d ++ [(var, raw)]) a'.
Proof.
  intros HV [I1 I2 I3 I4 I5 I6 I7 I8 I9 I10 I11 I12 I13 I14] H.
  destruct a as [ips dns port sch cch ui ssid pw med proto delay byp].
  unfold rv_step in H. unfold from_slice in H. destruct (dec_top raw) as [v|] eqn:DV; [|discriminate].
  cbn [of_option bind] in H. unfold from_value in H.
  assert (VIS : not_for sd (var, raw) = false -> forall i, In i (d ++ [(var, raw)]) -> not_for sd i = false).
  { intros E i Hi. apply in_app_or in Hi. destruct Hi as [Hi|[<-|Hi]]; [auto|exact E|destruct Hi]. }
  assert (RD : readable_as sd var v -> Forall (readable sd) (d ++ [(var, raw)])).
  { intros R. apply Forall_app. split; [exact I2|]. constructor; [|constructor]. exists v. auto. }
  cbn [ac_ips ac_dns ac_port ac_sch ac_cch ac_ui ac_ssid ac_pw ac_med ac_proto ac_delay ac_bypass] in *.
  splitvar var H; destruct sd; cbn [side_eqb negb] in H;
  repeat match type of H with
  | context[of_option FSerde (?f v)] => let E := fresh "F" in destruct (f v) eqn:E; cbn [of_option bind] in H; [|discriminate]
  end; try discriminate;
  try (assert (var = RV_Bypass) as -> by (unfold RV_DeviceOnly, RV_OwnerOnly, RV_IPAddress, RV_DevicePort, RV_OwnerPort, RV_Dns,
    RV_ServerCertHash, RV_CaCertHash, RV_UserInput, RV_WifiSsid, RV_WifiPw, RV_Medium, RV_Protocol, RV_Delaysec, RV_Bypass in *; lia));
  inversion H; subst a'; clear H;
  constructor; cbn [ac_ips ac_dns ac_port ac_sch ac_cch ac_ui ac_ssid ac_pw ac_med ac_proto ac_delay ac_bypass port_var device_reads] in *;
  try (apply VIS; reflexivity);
  try (apply RD; unfold readable_as, port_var; repeat split; intros; first [congruence|discriminate]);
  try (apply last_other; [reflexivity|assumption]);
  try (eapply last_same; eassumption);
  try (apply ex_other; [reflexivity|assumption]);
  try (apply iff_given_other; [reflexivity|assumption]);
  try (eexists; split; [eapply last_same; eassumption|reflexivity]);
  try assumption;
  try (rewrite given_other by reflexivity; assumption);
  try (split; [intros _; split; [reflexivity|apply given_some]|reflexivity]);
  try (rewrite given_snoc; cbn [fst snd N.eqb]; apply Forall2_app; [assumption|constructor; [eauto|constructor]]).
  all: try (split; [intros W; apply I8 in W; destruct W; discriminate|intros [W _]; discriminate]).
Qed.

Lemma loop_snoc sd : forall d a i,
  rv_loop sd a (d ++ [i]) = let! o := rv_loop sd a d in match o with None => Ok None | Some a' => rv_step sd a' i end.
Proof.
  induction d as [|j d IH]; intros a i; cbn [app rv_loop].
  - cbn [bind]. destruct (rv_step sd a i) as [[?|]| |]; reflexivity.
  - destruct (rv_step sd a j) as [[a1|]| |]; cbn [bind]; [apply IH|reflexivity|reflexivity|reflexivity].
Qed.

Lemma loop_inv sd : forall d a, Forall (fun i => fst i <= 14) d -> rv_loop sd acc0 d = Ok (Some a) -> inv sd d a.
Proof.
  induction d as [|[var raw] d IH] using rev_ind; intros a HV H.
  - cbn in H. inversion H. apply inv0.
  - rewrite loop_snoc in H. apply Forall_app in HV. destruct HV as [HV1 HV2].
    destruct (rv_loop sd acc0 d) as [[a1|]| |] eqn:E; cbn [bind] in H; try discriminate.
    inversion HV2; subst. eapply inv_step; eauto.
Qed.

(** What one step does: go on with a readable instruction, stop at a marker, fail otherwise. *)
Lemma step_cases sd a var raw : var <= 14 ->
  match rv_step sd a (var, raw) with
  | Ok (Some _) => not_for sd (var, raw) = false /\ readable sd (var, raw)
  | Ok None => not_for sd (var, raw) = true /\ dec_top raw <> None
  | Err e => e = FSerde /\ ~ readable sd (var, raw) /\ (dec_top raw = None \/ not_for sd (var, raw) = false)
  | Panic _ => False
  end.
Proof.
  intros HV. destruct a. unfold rv_step, from_slice. destruct (dec_top raw) as [v|] eqn:D; cbn [of_option bind].
  2:{ split; [reflexivity|]. split; [|left; reflexivity]. intros (v & E & _). cbn [snd] in E. congruence. }
  assert (RD : readable_as sd var v -> readable sd (var, raw)) by (intros R; exists v; auto).
  assert (NR : ~ readable_as sd var v -> ~ readable sd (var, raw)).
  { intros R (v' & E & R'). cbn [fst snd] in *. rewrite D in E. inversion E; subst. auto. }
  unfold from_value.
  repeat match goal with
  | |- context[if (var =? ?k) then _ else _] => destruct (N.eqb_spec var k) as [->|?]
  end;
  try (assert (var = RV_Bypass) as -> by (unfold RV_DeviceOnly, RV_OwnerOnly, RV_IPAddress, RV_DevicePort, RV_OwnerPort, RV_Dns,
    RV_ServerCertHash, RV_CaCertHash, RV_UserInput, RV_WifiSsid, RV_WifiPw, RV_Medium, RV_Protocol, RV_Delaysec, RV_Bypass in *; lia));
  destruct sd; cbn [side_eqb negb];
  repeat match goal with
  | |- context[of_option FSerde (?f v)] => let E := fresh "F" in destruct (f v) eqn:E; cbn [of_option bind]
  end;
  first
  [ split; [reflexivity|]; first [discriminate | apply RD; unfold readable_as, port_var; repeat split; intros; first [congruence|discriminate]]
  | split; [reflexivity|]; split; [apply NR; unfold readable_as, port_var; intros (R1 & R2 & R3 & R4 & R5 & R6 & R7 & R8 & R9 & R10);
      solve [exact (R1 eq_refl F)|exact (R2 eq_refl F)|exact (R3 eq_refl F)|exact (R4 eq_refl eq_refl F)|exact (R5 eq_refl eq_refl F)|exact (R6 eq_refl eq_refl F)
            |exact (R7 eq_refl eq_refl F)|exact (R8 eq_refl eq_refl F)|exact (R9 eq_refl F)|exact (R10 eq_refl F)]|right; reflexivity] ].
Qed.

(** The whole loop. *)
Lemma loop_cases sd : forall d a, Forall (fun i => fst i <= 14) d ->
  match rv_loop sd a d with
  | Ok (Some _) => Forall (fun i => not_for sd i = false /\ readable sd i) d
  | Ok None => exists d1 i d2, d = d1 ++ i :: d2 /\ Forall (fun i => not_for sd i = false /\ readable sd i) d1 /\
      not_for sd i = true /\ dec_top (snd i) <> None
  | Err e => exists d1 i d2, e = FSerde /\ d = d1 ++ i :: d2 /\ Forall (fun i => not_for sd i = false /\ readable sd i) d1 /\
      ~ readable sd i /\ (dec_top (snd i) = None \/ not_for sd i = false)
  | Panic _ => False
  end.
Proof.
  induction d as [|[var raw] d IH]; intros a HV; cbn [rv_loop]; [constructor|]. inversion HV as [|? ? H1 H2]; subst. cbn [fst] in H1.
  pose proof (step_cases sd a var raw H1) as S. destruct (rv_step sd a (var, raw)) as [[a1|]|e|w]; cbn [bind].
  - specialize (IH a1 H2). destruct (rv_loop sd a1 d) as [[a2|]|e|w].
    + constructor; auto.
    + destruct IH as (d1 & i & d2 & -> & F & N). exists ((var, raw) :: d1), i, d2. split; [reflexivity|]. split; [constructor; auto|exact N].
    + destruct IH as (d1 & i & d2 & -> & -> & F & N). exists ((var, raw) :: d1), i, d2. split; [reflexivity|]. split; [reflexivity|]. split; [constructor; auto|exact N].
    + exact IH.
  - destruct S as [S1 S2]. exists [], (var, raw), d. split; [reflexivity|]. split; [constructor|]. split; [exact S1|exact S2].
  - destruct S as (-> & S2 & S3). exists [], (var, raw), d. split; [reflexivity|]. split; [reflexivity|]. split; [constructor|]. split; [exact S2|exact S3].
  - exact S.
Qed.

(** The shape of the whole interpretation. *)
Lemma from_rv_directive_cases sd d : Forall (fun i => fst i <= 14) d ->
  match from_rv_directive d sd with
  | Ok (Some x) => Forall (fun i => not_for sd i = false /\ readable sd i) d /\ interprets sd d x
  | Ok None => exists d1 i d2, d = d1 ++ i :: d2 /\ Forall (fun i => not_for sd i = false /\ readable sd i) d1 /\
      not_for sd i = true /\ dec_top (snd i) <> None
  | Err e => e = FSerde /\
     ((exists d1 i d2, d = d1 ++ i :: d2 /\ Forall (fun i => not_for sd i = false /\ readable sd i) d1 /\
        ~ readable sd i /\ (dec_top (snd i) = None \/ not_for sd i = false)) \/
      (Forall (fun i => not_for sd i = false /\ readable sd i) d /\ given (port_var sd) d = [] /\
       exists o, last_given as_protocol RV_Protocol d o /\ o <> Some PR_Http /\ o <> Some PR_Https))
  | Panic _ => False
  end.
Proof.
  intros HV. unfold from_rv_directive. pose proof (loop_cases sd d acc0 HV) as C.
  destruct (rv_loop sd acc0 d) as [[a|]|e|w] eqn:L; cbn [bind].
  - apply loop_inv in L; [|exact HV]. destruct a as [ips dns port sch cch ui ssid pw med proto delay byp].
    destruct L as [I1 I2 I3 I4 I5 I6 I7 I8 I9 I10 I11 I12 I13 I14].
    cbn [ac_ips ac_dns ac_port ac_sch ac_cch ac_ui ac_ssid ac_pw ac_med ac_proto ac_delay ac_bypass] in *.
    destruct port as [p|]; cbn [bind].
    + split; [exact C|]. constructor; cbn; auto. exists (Some p); auto.
    + unfold default_port. destruct (N.eqb_spec proto PR_Http) as [->|H1]; cbn [bind].
      { split; [exact C|]. constructor; cbn; auto. exists None; auto. }
      destruct (N.eqb_spec proto PR_Https) as [->|H2]; cbn [bind].
      { split; [exact C|]. constructor; cbn; auto. exists None; auto. }
      split; [reflexivity|]. right. split; [exact C|]. split.
      { unfold last_given in I5. destruct (rev (given (port_var sd) d)) eqn:R.
        - rewrite <- (rev_involutive (given (port_var sd) d)), R. reflexivity.
        - destruct I5 as (? & ? & _ & _ & W). discriminate. }
      destruct I12 as (o & O1 & O2). exists o. split; [exact O1|]. split; intros ->; congruence.
  - exact C.
  - destruct C as (d1 & i & d2 & -> & C). split; [reflexivity|]. left. exists d1, i, d2. exact C.
  - destruct C.
Qed.

(** Instructions read from the wire carry one of the fifteen variables. *)
Lemma all_some_in {A} : forall (l : list (option A)) r, all_some l = Some r -> forall x, In x r -> In (Some x) l.
Proof.
  induction l as [|[a|] l IH]; intros r H x I; cbn in H; [inversion H; subst; destruct I| |discriminate].
  destruct (all_some l) as [r'|]; [|discriminate]. inversion H; subst. destruct I as [->|I]; [left; reflexivity|right; eapply IH; eauto].
Qed.
Lemma as_rv_info_vars v r : as_rv_info v = Some r -> Forall (Forall (fun i => fst i <= 14)) r.
Proof.
  unfold as_rv_info, as_list at 1. destruct (untag v); try discriminate. intros H. apply Forall_forall. intros d Hd.
  apply (all_some_in _ _ H) in Hd. apply in_map_iff in Hd. destruct Hd as (u & E & _). unfold as_list in E.
  destruct (untag u); try discriminate. apply Forall_forall. intros i Hi. apply (all_some_in _ _ E) in Hi.
  apply in_map_iff in Hi. destruct Hi as (w & E2 & _). unfold as_rv_instruction in E2.
  destruct (as_fields w) as [|k [|b [|? ?]]]; try discriminate. unfold as_rv_variable, as_int in E2.
  destruct (untag k) as [z| | | | | | |]; try discriminate. destruct ((0 <=? z)%Z && (z <=? 14)%Z) eqn:B; [|discriminate].
  cbn [option_map] in E2. destruct (as_bytebuf b); [|discriminate]. inversion E2; subst. cbn [fst]. lia.
Qed.
