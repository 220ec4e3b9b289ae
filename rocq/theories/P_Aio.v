(** C94 to C97: the all-in-one. *)
From Verif Require Import Base BaseFacts CborModel ValueModel ValueProofs Text TypesModel TypesProofs CryptoSpec Assoc RvModel RvYamlModel RvServerModel RvServerSpec SiApiModel OwnerModel To0Model To0Spec MfgModel MfgSpec FactorySpec LifeSpec AioModel AioSpec AioProofs AioProofs2.
From Coq Require Import ZifyBool ZifyNat ZifyN.
Local Open Scope N_scope.
Local Opaque dec_top.

Lemma default_ok : opts_ok default_opts.
Proof. constructor; cbn [default_opts ao_mfg_port ao_own_port ao_rv_port ao_api_port ao_period ao_window ao_hostname]; [lia| |discriminate]. unfold DEFAULT_REGISTRATION_PERIOD, DEFAULT_RE_REGISTRATION_WINDOW. split; intros n E; injection E as <-; reflexivity. Qed.
Lemma configures_ok l dr e k o dr' e' : Forall cmd_ok l -> draws_ok dr -> In k (l ++ [Run dr e]) -> configures k o dr' e' -> opts_ok o /\ draws_ok dr'.
Proof.
  intros F D I' C. assert (K : cmd_ok k). { apply in_app_or in I'. destruct I' as [I'|[<-|[]]]; [rewrite Forall_forall in F; apply F, I'|exact D]. }
  destruct C as [-> |(-> & ->)]; cbn [cmd_ok] in K; [exact K|split; [apply default_ok|exact K]].
Qed.

(** Whenever the all-in-one has come so far as to start its servers, and they start, whatever commands were given before and
    wherever they were interrupted: the servers are set up by one of the configurations asked for (or the default one), and belong
    together. *)
Theorem C94_together : forall c kf show_ip parse_ip mk_key mkcert l d0 dr e d a kdf sk2 pub2 u,
  ip_texts show_ip parse_ip -> makes_keys c kf mk_key -> issues c mkcert -> keyfns_ok c kf -> outputs_ok c ->
  d0 = None \/ d0 = Some [] -> Forall cmd_ok l -> draws_ok dr ->
  run show_ip mk_key (commands show_ip mk_key l d0) dr e = (Some d, Some a) ->
  start_all c kf parse_ip kdf sk2 pub2 d = Some u ->
  exists k o dr' e' contacts, In k (l ++ [Run dr e]) /\ configures k o dr' e' /\ contacts_for o dr' contacts /\
    together c kf show_ip mkcert o contacts u /\
    (* what the all-in-one itself has read, unless writing that was interrupted *)
    (e' = Complete -> ac_opts a = o).
Proof.
  intros c kf show_ip parse_ip mk_key mkcert l d0 dr e d a kdf sk2 pub2 u IT MK IS KF LAW F FC DO R ST.
  destruct (run_complete show_ip mk_key l d0 dr e d a F R) as (k & o & dr' & e' & I' & C & CP & W).
  destruct (configures_ok l dr e k o dr' e' FC DO I' C) as (OO & DO').
  destruct (started c kf show_ip parse_ip mk_key IT MK kdf sk2 pub2 o dr' d CP OO DO') as (key & cert & type & M & E).
  rewrite E in ST. clear E. destruct (registration_times (ao_period o) (ao_window o)) as [t|] eqn:RT; [|discriminate]. destruct (distinct _) eqn:DI; [|discriminate]. apply distinct_nodup in DI. injection ST as <-.
  exists k, o, dr', e', (contact_addresses o (dr_ifs dr')). split; [exact I'|]. split; [exact C|]. split; [apply contacts_are, DO'|]. split.
  - apply (all_together c kf show_ip parse_ip mk_key mkcert); assumption.
  - intros EC. rewrite (W EC). reflexivity.
Qed.
Print Assumptions C94_together.

(** C95.  They start if the ports are different and the two times of registrations fit, and only then. *)
Theorem C95_start_partial : forall c kf show_ip parse_ip mk_key l d0 dr e d a kdf sk2 pub2,
  ip_texts show_ip parse_ip -> makes_keys c kf mk_key ->
  d0 = None \/ d0 = Some [] -> Forall cmd_ok l -> draws_ok dr ->
  run show_ip mk_key (commands show_ip mk_key l d0) dr e = (Some d, Some a) ->
  exists k o dr' e', In k (l ++ [Run dr e]) /\ configures k o dr' e' /\ (start_all c kf parse_ip kdf sk2 pub2 d <> None <-> workable o).
Proof.
  intros c kf show_ip parse_ip mk_key l d0 dr e d a kdf sk2 pub2 IT MK F FC DO R.
  destruct (run_complete show_ip mk_key l d0 dr e d a F R) as (k & o & dr' & e' & I' & C & CP & W).
  destruct (configures_ok l dr e k o dr' e' FC DO I' C) as (OO & DO').
  destruct (started c kf show_ip parse_ip mk_key IT MK kdf sk2 pub2 o dr' d CP OO DO') as (key & cert & type & M & E).
  exists k, o, dr', e'. split; [exact I'|]. split; [exact C|]. rewrite E. clear E. unfold workable. pose proof (times_iff o) as TI.
  destruct (registration_times (ao_period o) (ao_window o)) as [t|].
  - destruct (distinct _) eqn:D.
    + apply distinct_nodup in D. split; [intros _; split; [exact D|apply TI; discriminate]|discriminate].
    + split; [congruence|]. intros (N & _). apply distinct_nodup in N. congruence.
  - split; [congruence|]. intros (_ & N). apply TI in N. congruence.
Qed.
Print Assumptions C95_start_partial.

(** The default configuration is one of these. *)
Theorem C95_default : workable default_opts.
Proof.
  unfold workable. cbn [default_opts ao_mfg_port ao_own_port ao_rv_port ao_api_port ao_period ao_window]. unfold DEFAULT_REGISTRATION_PERIOD, DEFAULT_RE_REGISTRATION_WINDOW.
  split; [repeat (constructor; [cbn [In]; intuition discriminate|]); constructor|]. split; [intros n E; injection E as <-; discriminate|]. cbv zeta. lia.
Qed.
Print Assumptions C95_default.

(** What one would expect: a configuration that the tool has accepted can be run. *)
Definition C95_statement : Prop := forall c kf show_ip parse_ip mk_key o dr d kdf sk2 pub2,
  ip_texts show_ip parse_ip -> makes_keys c kf mk_key -> opts_ok o -> draws_ok dr ->
  generate_configs_and_keys show_ip mk_key None (Some o) dr Complete = (Some d, true) ->
  start_all c kf parse_ip kdf sk2 pub2 d <> None.
(** And that the servers listen where they were told to. *)
Definition C95_listen_statement : Prop := forall c kf show_ip parse_ip mk_key o dr d kdf sk2 pub2 u,
  ip_texts show_ip parse_ip -> makes_keys c kf mk_key -> opts_ok o -> draws_ok dr ->
  generate_configs_and_keys show_ip mk_key None (Some o) dr Complete = (Some d, true) ->
  start_all c kf parse_ip kdf sk2 pub2 d = Some u ->
  mu_bind (sv_mfg u) = Listen (ao_listen o) (ao_mfg_port o) /\ ou_bind (sv_own u) = Listen (ao_listen o) (ao_own_port o) /\
  ru_bind (sv_rv u) = Listen (ao_listen o) (ao_rv_port o) /\ au_bind (sv_api u) = Listen (ao_listen o) (ao_api_port o).
(** They always listen on all addresses. *)
Theorem C95_listen_partial : forall c kf show_ip parse_ip mk_key l d0 dr e d a kdf sk2 pub2 u,
  ip_texts show_ip parse_ip -> makes_keys c kf mk_key ->
  d0 = None \/ d0 = Some [] -> Forall cmd_ok l -> draws_ok dr ->
  run show_ip mk_key (commands show_ip mk_key l d0) dr e = (Some d, Some a) ->
  start_all c kf parse_ip kdf sk2 pub2 d = Some u ->
  exists k o dr' e', In k (l ++ [Run dr e]) /\ configures k o dr' e' /\
  mu_bind (sv_mfg u) = Listen (txt "0.0.0.0") (ao_mfg_port o) /\ ou_bind (sv_own u) = Listen (txt "0.0.0.0") (ao_own_port o) /\
  ru_bind (sv_rv u) = Listen (txt "0.0.0.0") (ao_rv_port o) /\ au_bind (sv_api u) = Listen (txt "0.0.0.0") (ao_api_port o).
Proof.
  intros c kf show_ip parse_ip mk_key l d0 dr e d a kdf sk2 pub2 u IT MK F FC DO R ST.
  destruct (run_complete show_ip mk_key l d0 dr e d a F R) as (k & o & dr' & e' & I' & C & CP & W).
  destruct (configures_ok l dr e k o dr' e' FC DO I' C) as (OO & DO').
  destruct (started c kf show_ip parse_ip mk_key IT MK kdf sk2 pub2 o dr' d CP OO DO') as (key & cert & type & M & E).
  rewrite E in ST. clear E. destruct (registration_times (ao_period o) (ao_window o)) as [t|] eqn:RT; [|discriminate]. destruct (distinct _); [|discriminate]. injection ST as <-.
  exists k, o, dr', e'. split; [exact I'|]. split; [exact C|]. repeat split.
Qed.
Print Assumptions C95_listen_partial.

(** C96.  Keys and configurations are never changed by a later command: a directory with anything in it stays as it is. *)
Theorem C96_never_overwritten : forall show_ip mk_key l d, d <> [] -> commands show_ip mk_key l (Some d) = Some d.
Proof.
  intros show_ip mk_key l d N. destruct d as [|x r]; [congruence|]. unfold commands. induction l as [|k l IH]; [reflexivity|]. cbn [fold_left].
  pose proof (nonempty_kept show_ip mk_key (Some (x :: r)) x r k eq_refl) as E.
  exact (eq_ind_r (fun z => fold_left (command show_ip mk_key) l z = Some (x :: r)) IH E).
Qed.
Print Assumptions C96_never_overwritten.
(** So configuring succeeds at most once. *)
Theorem C96_once : forall show_ip mk_key d o dr e d', d <> [] -> generate_configs_and_keys show_ip mk_key (Some d) o dr e = (Some d', true) -> False.
Proof. intros show_ip mk_key d o dr e d' N H. destruct d as [|x r]; [congruence|]. cbn [generate_configs_and_keys] in H. destruct o; discriminate. Qed.
Print Assumptions C96_once.

(** C97.  What one would expect: an interrupted configuration can be made up for. *)
Definition C97_statement : Prop := forall show_ip mk_key l, Forall cmd_ok l ->
  (forall s org rnd, exists sk cert, mk_key s org (txt "US") rnd = Some (sk, cert)) ->
  exists l' dr e, snd (run show_ip mk_key (commands show_ip mk_key (l ++ l') None) dr e) <> None.
(** So can one that was not interrupted, but refused the options half-way. *)
Definition C97_options_statement : Prop := forall show_ip mk_key o dr, opts_ok o -> draws_ok dr ->
  snd (generate_configs_and_keys show_ip mk_key None (Some o) dr Complete) = false ->
  (forall s org rnd, exists sk cert, mk_key s org (txt "US") rnd = Some (sk, cert)) ->
  exists l' dr' e, snd (run show_ip mk_key (commands show_ip mk_key (Generate o dr Complete :: l') None) dr' e) <> None.

(** While nothing has been made, a run configures, and has all it needs. *)
Theorem C97_fresh_partial : forall show_ip mk_key l d0 dr, d0 = None \/ d0 = Some [] ->
  commands show_ip mk_key l d0 = None \/ commands show_ip mk_key l d0 = Some [] ->
  (forall s, exists sk cert, mk_key s (ao_org default_opts) (ao_country default_opts) (dr_rnd dr s) = Some (sk, cert)) ->
  exists d a, run show_ip mk_key (commands show_ip mk_key l d0) dr Complete = (Some d, Some a) /\ ac_opts a = default_opts.
Proof.
  intros show_ip mk_key l d0 dr F0 F K. exists (fst (do_ops [] (fst (steps show_ip mk_key default_opts dr)) Complete)), (filled_in default_opts dr). split; [|reflexivity].
  unfold run. assert (E : match commands show_ip mk_key l d0 with Some d => match aget RECORD d with Some _ => true | None => false end | None => false end = false) by (destruct F as [F|F]; rewrite F; reflexivity).
  cbv zeta. rewrite E. clear E. rewrite generate_fresh by exact F.
  destruct (K SDiun) as (k1 & c1 & K1). destruct (K SManufacturer) as (k2 & c2 & K2). destruct (K SDeviceCA) as (k3 & c3 & K3). destruct (K SOwner) as (k4 & c4 & K4).
  assert (OKS : snd (steps show_ip mk_key default_opts dr) = true) by (unfold steps; cbn [key_steps]; rewrite K1, K2, K3, K4; reflexivity).
  assert (SN : forall ops, snd (do_ops [] ops Complete) = true) by reflexivity.
  rewrite OKS. cbn [andb]. rewrite SN.
  assert (T : aget RECORD (fst (do_ops [] (fst (steps show_ip mk_key default_opts dr)) Complete)) <> None).
  { unfold steps. cbn [key_steps]. rewrite K1, K2, K3, K4. cbn [fst do_ops]. rewrite !fold_left_app. unfold configs. cbn [fold_left do_op]. rewrite aget_aset_eq. discriminate. }
  destruct (record_complete show_ip mk_key default_opts dr Complete T) as (_ & _ & W). rewrite (W eq_refl). reflexivity.
Qed.
Print Assumptions C97_fresh_partial.
(** But once something has been made without getting to the end, nothing will ever run in this directory. *)
Theorem C97_stuck : forall show_ip mk_key l d dr e, d <> [] -> aget RECORD d = None ->
  run show_ip mk_key (commands show_ip mk_key l (Some d)) dr e = (Some d, None).
Proof.
  intros show_ip mk_key l d dr e N R. rewrite C96_never_overwritten by exact N. unfold run. rewrite R. destruct d as [|x r]; [congruence|]. reflexivity.
Qed.
Print Assumptions C97_stuck.

(** * A case *)
From Verif Require Import ToyCrypto P_RvServer P_Mfg.
(** Texts of addresses: one character per octet *)
Definition ai_show (ip : bytes) : str := map (fun b => b + 256) ip.
Definition ai_parse (s : str) : option bytes := if forallb (fun x => 256 <=? x) s then Some (map (fun x => x - 256) s) else None.
Lemma ai_texts : ip_texts ai_show ai_parse.
Proof.
  intros ip (B & L). unfold ai_show, ai_parse. split.
  - assert (F : forallb (fun x => 256 <=? x) (map (fun b => b + 256) ip) = true) by (apply forallb_forall; intros x I'; apply in_map_iff in I'; destruct I' as (b & <- & _); lia).
    rewrite F, map_map. f_equal. rewrite <- (map_id ip) at 2. apply map_ext. intros b. lia.
  - split.
    + apply forallb_forall. intros x I'. apply in_map_iff in I'. destruct I' as (b & <- & I'). unfold bytes_ok in B. rewrite Forall_forall in B. specialize (B b I'). unfold is_scalar. lia.
    + assert (U : nlen (utf8_enc (map (fun b => b + 256) ip)) <= 4 * nlen ip).
      { clear. induction ip as [|b ip IH]; [vm_compute; discriminate|]. unfold utf8_enc in *. cbn [map concat]. rewrite nlen_app.
        assert (nlen (utf8_char (b + 256)) <= 4). { unfold utf8_char, nlen. repeat match goal with |- context [if ?x then _ else _] => destruct x end; cbn [length]; lia. }
        unfold nlen in *. cbn [length]. lia. }
      lia.
Qed.
Definition ai_key (s : subject) (org country : str) (rnd : bytes) : option (bytes * bytes) :=
  match rnd, country with
  | n :: _, [_; _] => if n <? 256 then Some ([n], [n; n]) else None
  | [], [_; _] => Some ([1], [1; 1])
  | _, _ => None end.
Lemma ai_keys : makes_keys toy kf_toy ai_key.
Proof.
  intros s org country rnd sk cert H. unfold ai_key in H. destruct rnd as [|n r]; destruct country as [|x [|y [|]]]; try discriminate.
  - injection H as <- <-. repeat split; try discriminate. repeat constructor; lia.
  - destruct (N.ltb_spec n 256); [|discriminate]. injection H as <- <-. cbn [toy c_cert_key c_pub c_alg c_cert_of_der kf_toy kf_type]. destruct (N.ltb_spec n 256); [|lia].
    repeat split; try discriminate. repeat constructor; assumption.
Qed.
Lemma ai_issues : issues toy mk_toy.
Proof.
  intros signer sk info key rnd cert K H. unfold mk_toy in H. destruct key as [|k [|? ?]]; try discriminate. destruct signer as [|i ?]; [discriminate|].
  destruct ((k <? 256) && (i <? 256)) eqn:E; [|discriminate]. injection H as <-. cbn [toy c_cert_key c_pub c_issued c_cert_verify] in *.
  destruct (i <? 256); [|discriminate]. injection K as <-. rewrite N.eqb_refl, bytes_eqb_refl. split; reflexivity.
Qed.
Definition ai_draws : draws :=
  Draws (fun s => match s with SDiun => [41] | SManufacturer => [9] | SDeviceCA => [43] | SOwner => [7] end) (txt "tok") (txt "adm")
    [[127; 0; 0; 1]; [192; 168; 1; 2]; repeat 0 15 ++ [1]; 254 :: 128 :: repeat 0 13 ++ [5]].
Lemma ai_draws_ok : draws_ok ai_draws.
Proof. constructor; [|vm_compute; discriminate]. repeat (constructor; [split; [apply bytes_okb; vm_compute; reflexivity|vm_compute; tauto]|]). constructor. Qed.
Definition ai_opts (window : N) (listen country : str) : aopts := AOpts (txt "Org") country listen 1 2 3 4 false true false false true (Some 600) (Some window) (Some (txt "aio.example")).
Lemma ai_opts_ok w l x : w < 2 ^ 32 -> opts_ok (ai_opts w l x).
Proof.
  intros L. constructor; cbn [ai_opts ao_mfg_port ao_own_port ao_rv_port ao_api_port ao_period ao_window ao_hostname]; [lia| |].
  - split; intros n E; injection E as <-; [reflexivity|exact L].
  - intros h E. injection E as <-. split; [vm_compute; reflexivity|vm_compute; discriminate].
Qed.
(** The host's addresses but the loopback ones are found. *)
Example C94_contacts : contact_addresses default_opts (dr_ifs ai_draws) = [CIp [192; 168; 1; 2]; CIp (254 :: 128 :: repeat 0 13 ++ [5])].
Proof. vm_compute. reflexivity. Qed.
(** An interruption before anything was made, then a configuration, then one that is refused, then a run *)
Definition ai_history : list cmd :=
  [Generate (ai_opts 61 [] (txt "US")) ai_draws (After 0); Generate (ai_opts 100 [] (txt "US")) ai_draws Complete; Generate default_opts ai_draws Complete].
Lemma ai_history_ok : Forall cmd_ok ai_history.
Proof.
  constructor; [split; [apply ai_opts_ok; reflexivity|apply ai_draws_ok]|]. constructor; [split; [apply ai_opts_ok; reflexivity|apply ai_draws_ok]|].
  constructor; [split; [apply default_ok|apply ai_draws_ok]|constructor].
Qed.
Example C94_case : exists d a u,
  run ai_show ai_key (commands ai_show ai_key ai_history None) ai_draws Complete = (Some d, Some a) /\
  start_all toy kf_toy ai_parse true [8] (Pubkey 10 1 [8] [8] None) d = Some u /\
  ac_opts a = ai_opts 100 [] (txt "US") /\ tc_window (ou_to0 (sv_own u)) = 100.
Proof.
  assert (R : snd (run ai_show ai_key (commands ai_show ai_key ai_history None) ai_draws Complete) <> None) by (vm_compute; discriminate).
  assert (F : fst (run ai_show ai_key (commands ai_show ai_key ai_history None) ai_draws Complete) <> None) by (vm_compute; discriminate).
  assert (O : option_map ac_opts (snd (run ai_show ai_key (commands ai_show ai_key ai_history None) ai_draws Complete)) = Some (ai_opts 100 [] (txt "US"))) by (vm_compute; reflexivity).
  assert (U : match fst (run ai_show ai_key (commands ai_show ai_key ai_history None) ai_draws Complete) with
              | Some d => match start_all toy kf_toy ai_parse true [8] (Pubkey 10 1 [8] [8] None) d with Some u => tc_window (ou_to0 (sv_own u)) = 100 | None => False end
              | None => False end) by (vm_compute; reflexivity).
  destruct (run ai_show ai_key (commands ai_show ai_key ai_history None) ai_draws Complete) as [[d|] [a|]]; cbn [fst snd option_map] in *; try congruence.
  destruct (start_all toy kf_toy ai_parse true [8] (Pubkey 10 1 [8] [8] None) d) as [u|] eqn:SU; [|contradiction].
  exists d, a, u. split; [reflexivity|]. split; [exact SU|]. split; [congruence|exact U].
Qed.
(** The theorem applies to it. *)
Example C94_applies : exists u o contacts, together toy kf_toy ai_show mk_toy o contacts u.
Proof.
  destruct C94_case as (d & a & u & R & ST & _).
  destruct (C94_together toy kf_toy ai_show ai_parse ai_key mk_toy ai_history None ai_draws Complete d a true [8] (Pubkey 10 1 [8] [8] None) u
    ai_texts ai_keys ai_issues kf_toy_ok toy_outputs_ok (or_introl eq_refl) ai_history_ok ai_draws_ok R ST) as (k & o & dr' & e' & contacts & _ & _ & _ & T & _).
  exists u, o, contacts. exact T.
Qed.

(** * Findings *)
(** A window larger than the period is accepted; the owner's server does not start. *)
Theorem C95_refuted : ~ C95_statement.
Proof.
  intros H. set (o := ai_opts 700 [] (txt "US")).
  assert (G : snd (generate_configs_and_keys ai_show ai_key None (Some o) ai_draws Complete) = true) by (vm_compute; reflexivity).
  assert (U : match fst (generate_configs_and_keys ai_show ai_key None (Some o) ai_draws Complete) with
              | Some d => start_all toy kf_toy ai_parse true [8] (Pubkey 10 1 [8] [8] None) d = None | None => False end) by (vm_compute; reflexivity).
  destruct (generate_configs_and_keys ai_show ai_key None (Some o) ai_draws Complete) as [[d|] b] eqn:E; cbn [fst snd] in *; [|contradiction]. subst b.
  exact (H toy kf_toy ai_show ai_parse ai_key o ai_draws d true [8] (Pubkey 10 1 [8] [8] None) ai_texts ai_keys (ai_opts_ok 700 [] (txt "US") eq_refl) ai_draws_ok E U).
Qed.
Print Assumptions C95_refuted.
(** [--listen-ip-address 127.0.0.1] is accepted and has no effect. *)
Theorem C95_listen_refuted : ~ C95_listen_statement.
Proof.
  intros H. set (o := ai_opts 61 (txt "127.0.0.1") (txt "US")).
  assert (G : snd (generate_configs_and_keys ai_show ai_key None (Some o) ai_draws Complete) = true) by (vm_compute; reflexivity).
  assert (U : match fst (generate_configs_and_keys ai_show ai_key None (Some o) ai_draws Complete) with
              | Some d => match start_all toy kf_toy ai_parse true [8] (Pubkey 10 1 [8] [8] None) d with Some u => bytes_eqb (ls_ip (mu_bind (sv_mfg u))) (ao_listen o) = false | None => False end | None => False end) by (vm_compute; reflexivity).
  destruct (generate_configs_and_keys ai_show ai_key None (Some o) ai_draws Complete) as [[d|] b] eqn:E; cbn [fst snd] in *; [|contradiction]. subst b.
  destruct (start_all toy kf_toy ai_parse true [8] (Pubkey 10 1 [8] [8] None) d) as [u|] eqn:SU; [|contradiction].
  destruct (H toy kf_toy ai_show ai_parse ai_key o ai_draws d true [8] (Pubkey 10 1 [8] [8] None) u ai_texts ai_keys (ai_opts_ok 61 _ _ eq_refl) ai_draws_ok E SU) as (B & _).
  rewrite B in U. cbn [ls_ip] in U. rewrite bytes_eqb_refl in U. discriminate.
Qed.
Print Assumptions C95_listen_refuted.
(** One directory has been made when the process is ended: this directory will never be configured. *)
Lemma ai_us : forall (s : subject) (org : str) (rnd : bytes), exists sk cert, ai_key s org (txt "US") (match rnd with n :: _ => if n <? 256 then rnd else [] | [] => [] end) = Some (sk, cert).
Proof. intros s org [|n r]; [exists [1], [1; 1]; reflexivity|]. destruct (n <? 256) eqn:E; [exists [n], [n; n]|exists [1], [1; 1]]; cbn; rewrite ?E; reflexivity. Qed.
Definition ai_key2 (s : subject) (org country : str) (rnd : bytes) : option (bytes * bytes) :=
  ai_key s org country (match rnd with n :: _ => if n <? 256 then rnd else [] | [] => [] end).
Theorem C97_refuted : ~ C97_statement.
Proof.
  intros H. destruct (H ai_show ai_key2 [Generate default_opts ai_draws (After 1)]) as (l' & dr & e & R).
  - constructor; [split; [apply default_ok|apply ai_draws_ok]|constructor].
  - exact ai_us.
  - apply R. unfold commands. rewrite fold_left_app. fold (commands ai_show ai_key2 l' (fold_left (command ai_show ai_key2) [Generate default_opts ai_draws (After 1)] None)).
    change (fold_left (command ai_show ai_key2) [Generate default_opts ai_draws (After 1)] None) with (Some [(txt "work", NDir)]).
    rewrite C97_stuck; [reflexivity|discriminate|reflexivity].
Qed.
Print Assumptions C97_refuted.
(** [--cert-country USA] is not refused before the directories have been made. *)
Theorem C97_options_refuted : ~ C97_options_statement.
Proof.
  intros H. destruct (H ai_show ai_key2 (ai_opts 61 [] (txt "USA")) ai_draws) as (l' & dr & e & R).
  - apply ai_opts_ok. reflexivity.
  - apply ai_draws_ok.
  - vm_compute. reflexivity.
  - exact ai_us.
  - apply R. change (commands ai_show ai_key2 (Generate (ai_opts 61 [] (txt "USA")) ai_draws Complete :: l') None)
      with (commands ai_show ai_key2 l' (command ai_show ai_key2 None (Generate (ai_opts 61 [] (txt "USA")) ai_draws Complete))).
    assert (E : exists d, command ai_show ai_key2 None (Generate (ai_opts 61 [] (txt "USA")) ai_draws Complete) = Some d /\ d <> [] /\ aget RECORD d = None).
    { exists (map (fun o => (match o with Mkdir p => p | Write p _ => p end, NDir)) (directories (ai_opts 61 [] (txt "USA")))). split; [vm_compute; reflexivity|]. split; [discriminate|vm_compute; reflexivity]. }
    destruct E as (d & E & N & Q). rewrite E. rewrite C97_stuck; [reflexivity|exact N|exact Q].
Qed.
Print Assumptions C97_options_refuted.
