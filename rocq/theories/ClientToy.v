(** A device that runs against the models of the rendezvous server and the owner server, with the toy cryptography. *)
From Verif Require Import Base BaseFacts Text Assoc RvModel StoreModel Hex Backend CborModel ValueModel TypesModel VoucherModel VoucherSpec
  KexModel MsgModel SessionModel SessionSpec HttpClientModel RvServerModel RvServerRuns SiModel DevSiModel SiSpec SiApiModel SiApiSpec OwnerModel To0Model
  ToyCrypto ToySession P_Voucher P_Rv P_Kex P_RvServer P_Si P_SiApi P_Owner P_To0 ClientModel ClientSpec ClientProofs.
Local Open Scope N_scope.

(** A voucher whose HMAC is the device's, and the device's credential *)
Definition cl_secret : bytes := [33; 33].
Definition cl_header_bytes : bytes := of_ok [] (header_serialize to_header).
Definition cl_hmac : hash := Hash HmacSha384 (c_hmac toy Sha384 cl_secret cl_header_bytes).
Definition cl_new : voucher := of_ok ex_voucher (voucher_new to_header cl_hmac (Some [[42; 43]; [43; 43]])).
Definition cl_data (l : list ext) : bytes := of_ok [] (voucher_serialize (fst (extend_all toy true cl_new l))).
Definition cl_voucher (l : list ext) : voucher := of_ok ex_voucher (voucher_deserialize toy true (cl_data l)).
Definition cl_mfg : hash := of_ok ex_hmac (mfg_key_hash toy to_header Sha384).
Definition cl_cred : devcred := DevCred true V1_1 ex_guid [ex_d1] cl_mfg (Plain cl_secret [42]).

(** The servers: what the wires sent so far make of them *)
Definition cl_rv_url : str := txt "http://rv1:80".
Definition wires (url : str) (h : list devent) : list HttpClientModel.wire :=
  flat_map (fun e => match e with TWire u w => if bytes_eqb u url then [w] else [] | _ => [] end) h.
Definition at_rv (i : N) (w : HttpClientModel.wire) : list (event (W:=dir) (E:=rvenv)) :=
  one_request (Req (wr_type w) true (wr_auth w) (wr_body w) (RvEnv t1000 n4 IoOk) [i] [i] [] true) NoFault.
Definition kex384 : kex := Ecdh Ecdh384 [5; 6] (repeat 8 48).
(** The service info API server, with something of everything configured *)
Definition cl_api (key modules : str) : option reply :=
  match from_settings toy full_conf with
  | Some sc => ask_api (tokens_of (Some (txt "tok")) None) (txt "Bearer tok") sc no_pd [] modules
  | None => None
  end.
Definition cl_env : owenv := OwEnv t1000 n6 (fun _ => Some kex384) ex_guid [] None cl_api IoOk.
Definition at_owner (i : N) (w : HttpClientModel.wire) : list (event (W:=dir) (E:=owenv)) :=
  one_request (Req (wr_type w) true (wr_auth w) (wr_body w) cl_env [i] [i] [] true) NoFault.
Fixpoint numbered {X} (f : N -> HttpClientModel.wire -> list X) (i : N) (l : list HttpClientModel.wire) : list X :=
  match l with [] => [] | w :: r => f i w ++ numbered f (i + 1) r end.
(** The owner has registered *)
Definition cl_conf : to0conf := To0Conf (Some [[43; 43]]) [Addr None (Some (txt "owner")) 8043 3] [7] 600 61.
Definition cl_to0 (l : list ext) : list (event (W:=dir) (E:=rvenv)) :=
  rv_req 20 None [128] (RvEnv t1000 n3 IoOk) [1] ++
  rv_req 22 (Some [1]) (of_ok [] (sign_msg toy true cl_conf (cl_voucher l) n3 [])) (RvEnv t1000 n3 IoOk) [2].
Definition rv_says (l : list ext) (h : list devent) : response :=
  last (sent (snd (sys_run toy_aead toy_idt (toy_rv (rv_dir toy true)) (sys_init t1000 []) (cl_to0 l ++ numbered at_rv 5 (wires cl_rv_url h))))) Dropped.
Definition owner_run (l : list ext) (url : str) (h : list devent) :=
  sys_run toy_aead toy_idt (toy_ow (ow_dir toy true)) (sys_init t1000 [(get_path key_toy, File (cl_data l) [])]) (numbered at_owner 5 (wires url h)).
Definition owner_says (l : list ext) (url : str) (h : list devent) : response := last (sent (snd (owner_run l url h))) Dropped.
(** A network that loses what is not bytes or too long *)
Definition sift (o : option hresponse) : option hresponse :=
  match o with
  | Some r => match HttpClientModel.hr_body r with
              | Some b => if forallb (fun x => x <? 256) b && (nlen b <? 1000000) then Some r else None
              | None => Some r
              end
  | None => None
  end.
(** [down]: the types of the requests that get no answer *)
Definition cl_resp (down : list N) (l : list ext) (h : list devent) : option hresponse :=
  match rev h with
  | TWire url w :: _ =>
    if existsb (N.eqb (wr_type w)) down then None
    else sift (to_hresponse true (if bytes_eqb url cl_rv_url then rv_says l h else owner_says l url h) [])
  | _ => None
  end.
Definition cl_world (down : list N) (l : list ext) : world := World (cl_resp down l)
  (fun h => match rev h with TFx e :: _ => w_ok [e] | _ => Fine end) (fun _ => true) (fun h n => repeat (N.of_nat (length h) mod 256) 16) (fun h s => Some (Ecdh s [3; 4] (repeat 7 48)))
  (Some (Some (txt "linux"))) (txt "x86") [].
Definition cl_disk (m : deactivation) : devdisk := DevDisk false (Cred cl_cred) m.
Definition cl_main (down : list N) (l : list ext) (m : deactivation) (n : nat) :=
  main toy_aead toy true toy_kex true to_sh None (cl_world down l) false (cl_disk m) n.
Definition seen (e : devent) : N :=
  match e with TWire _ w => wr_type w | TFx _ => 1000 | TMark _ => 1001 | TErase _ => 1002 | TOff _ => 1003 | TDelete _ => 1004 end.

Lemma cl_sane down l : sane (cl_world down l).
Proof.
  intros h r b E B. cbn [wo_resp cl_world] in E. unfold cl_resp in E. destruct (rev h) as [|[url w| | | | |] ?]; try discriminate. destruct (existsb _ down); [discriminate|].
  destruct (to_hresponse _ _ _) as [r0|]; [|discriminate]. cbn [sift] in E. destruct (HttpClientModel.hr_body r0) as [b0|] eqn:B0.
  - destruct (forallb _ b0 && _) eqn:F; [|discriminate]. inversion E; subst r0. rewrite B0 in B. inversion B; subst b0. apply andb_true_iff in F. destruct F as [F1 F2].
    split; [apply bytes_okb; exact F1|]. apply N.ltb_lt in F2. change (2 ^ 62) with 4611686018427387904. lia.
  - inversion E; subst r0. congruence.
Qed.
(** The whole protocol: rendezvous, owner, service information from the API, and the end *)
Definition cl_run := cl_main [] ex_exts DeactivateIt 1.
Lemma cl_run_is : cl_run = (fst cl_run, snd cl_run). Proof. apply surjective_pairing. Qed.
Definition cl_trace : list N := map seen (fst cl_run).
Example cl_trace_is : cl_trace = [30; 32; 60; 62; 62; 62; 64; 66; 68; 1000; 1000; 1000; 1000; 1000; 1000; 1000; 68; 1001; 1002; 1003; 70].
Proof. vm_compute. reflexivity. Qed.
Example cl_exit : snd cl_run = Onboarded true.
Proof. vm_compute. reflexivity. Qed.
Example cl_effects : flat_map (fun e => match e with TFx x => [x] | _ => [] end) (fst cl_run) =
  [EWrite (txt "/etc/a") [1; 2] 420; EWrite (txt "/etc/b") [] 384; ERun (txt "ls") [txt "-l"];
   ENewUserPw (txt "admin") (txt "pw"); ENewUser (txt "admin"); EKey (txt "admin") (txt "key1"); EKey (txt "admin") (txt "key2")].
Proof. vm_compute. reflexivity. Qed.
