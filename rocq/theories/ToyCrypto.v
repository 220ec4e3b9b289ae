(** Concrete instances of [crypto], for the examples: nothing here is secure. *)
From Verif Require Import Base BaseFacts TypesModel CryptoSpec.
Local Open Scope N_scope.

Definition ck (b : bytes) : N := fold_left (fun a x => (a * 31 + x + 1) mod 18446744073709551616) b 7.

Definition toy_sig (key m : bytes) : bytes := be_enc 8 (ck key) ++ be_enc 8 (ck m).

(** A certificate is two bytes: subject key, issuer key.  A private key is its public key. *)
Definition toy : crypto := {|
  c_hash := fun t d => be_enc (match t with Sha384 | HmacSha384 => 48 | _ => 32 end) (ck d);
  c_hmac := fun t k d => be_enc (match t with Sha384 | HmacSha384 => 48 | _ => 32 end) (ck (k ++ 255 :: d));
  c_pub := fun sk => sk;
  c_alg := fun _ => Some (-7)%Z;
  c_sign := fun sk m _ => toy_sig sk m;
  c_verify := fun k m s => bytes_eqb s (toy_sig k m);
  c_key_of_der := fun b => Some b;
  c_cert_of_der := fun b => Some b;
  c_cert_key := fun b => match b with k :: _ => if k <? 256 then Some [k] else None | [] => None end;
  c_issued := fun issuer cert => match issuer, cert with k :: _, [_; i] => k =? i | _, _ => false end;
  c_cert_verify := fun cert key => match cert with [_; i] => Some (bytes_eqb [i] key) | _ => None end
|}.

Lemma toy_sign_correct : sign_correct toy.
Proof. intros sk m r. apply bytes_eqb_refl. Qed.

Lemma toy_outputs_ok : outputs_ok toy.
Proof.
  split; [|split].
  - intros t d. split; [apply be_enc_ok|]. unfold nlen. cbn [toy c_hash]. rewrite be_enc_length. destruct t; cbn; lia.
  - intros sk m r. cbn [toy c_sign]. unfold toy_sig. split; [apply bytes_ok_app; split; apply be_enc_ok|].
    unfold nlen. rewrite app_length, !be_enc_length. cbn. lia.
  - intros k a H. cbn in H. inversion H. lia.
Qed.

(** The same with the identity as hash: no collisions. *)
Definition idc : crypto := {|
  c_hash := fun _ d => d; c_hmac := fun _ k d => k ++ d;
  c_pub := c_pub toy; c_alg := c_alg toy; c_sign := c_sign toy; c_verify := c_verify toy;
  c_key_of_der := c_key_of_der toy; c_cert_of_der := c_cert_of_der toy; c_cert_key := c_cert_key toy;
  c_issued := c_issued toy; c_cert_verify := c_cert_verify toy
|}.
Lemma idc_no_collision : ~ collision idc.
Proof. intros (t & x & y & N & E). cbn in E. congruence. Qed.
Lemma idc_sign_correct : sign_correct idc.
Proof. intros sk m r. apply bytes_eqb_refl. Qed.
