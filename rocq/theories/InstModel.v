(** The installation image and the unit that starts the onboarding client: dracut/52fdo/manufacturing-client-service,
    examples/systemd/fdo-client-linuxapp.service. *)
From Verif Require Import Base ValueModel Text TypesModel Assoc KexModel SessionModel ClientModel MfgClientModel LocModel.
Local Open Scope N_scope.

(** manufacturing-client-service:10-12, fdo-client-linuxapp.service:7-10: names in the boot partition, and where they are once it is mounted at /boot *)
Definition CRED_NAME : str := txt "device-credentials".
Definition ENV_NAME : str := txt "fdo-client-env".
Definition BOOT_DIR : str := txt "/boot/".
Definition BOOT : str := txt "/boot/device-credentials".
Definition BOOT_ENV : str := txt "/boot/fdo-client-env".
(** manufacturing-client-service:11-13: the line written, with its newline *)
Definition ENV_LINE : bytes := txt "DEVICE_CREDENTIAL=" ++ [34] ++ txt "/boot/device-credentials" ++ [34; 10].

(** manufacturing-client.service:16-18: the client is started with LOG_LEVEL and what manufacturing-client-generator writes
    (lines 18-47), which names none of the variables for paths.  Simplified: no kernel argument has a quote or a newline in it. *)
Definition initrd_env : env := Env None false false None None.
(** manufacturing-client-service, with set -e: the events of the client, the files of the image and those of the boot partition
    afterwards, and whether the script succeeds.  [tools]: whether mkdir, udevadm, blkid and mount do (lines 6-9); [cp], [cat]:
    how far the two writes get.  Simplified: of cp -a the owner, mode and time are not kept. *)
Definition service A c chk ko avail to_der wo newkey how (tools : bool) (cp cat : written) (image boot : files) (su : setup) (mi : minfo) (url : str) : list devent * files * files * bool :=
  let (h, x) := initialise A c chk ko avail to_der wo newkey initrd_env image su mi url in
  let image' := mfg_files how initrd_env image h in
  match x with
  | Initialised | Already =>
    if tools then
      match aget ETC image' with
      | None => (h, image', boot, false)
      | Some data =>
        let boot1 := write_file cp CRED_NAME data boot in
        match cp with
        | Whole => (h, image', write_file cat ENV_NAME ENV_LINE boot1, match cat with Whole => true | _ => false end)
        | _ => (h, image', boot1, false)
        end
      end
    else (h, image', boot, false)
  | _ => (h, image', boot, false)
  end.

(** The files of the installed system: the boot partition at /boot, where it hides what the root partition has there. *)
Definition under_boot (p : str) : bool := bytes_eqb (firstn 6 p) BOOT_DIR.
Definition mounted (boot root : files) : files :=
  map (fun f => (BOOT_DIR ++ fst f, snd f)) boot ++ filter (fun f => negb (under_boot (fst f))) root.
(** fdo-client-linuxapp.service:7-8: [parse] is how systemd reads an environment file; without the file nothing is said *)
Definition unit_env (parse : bytes -> env) (fs : files) : env := match aget BOOT_ENV fs with Some b => parse b | None => Env None false false None None end.
(** fdo-client-linuxapp.service:11: mv, whose failure does not matter *)
Definition move (fs : files) : files := match aget BOOT fs with Some b => aset ETC b (adel BOOT fs) | None => fs end.
(** ExecStartPost is for a client that succeeds (client-linuxapp/src/main.rs:1086-1135: also if there was nothing to do) *)
Definition succeeded (x : exit) : bool := match x with Skipped | Onboarded _ => true | _ => false end.
(** fdo-client-linuxapp.service:5-11.  [moves]: mv works, and the client's reboot does not come first.  restorecon (line 9) changes no contents. *)
Definition unit_run A c chk ko avail show_ip prefix wo others (parse : bytes -> env) (moves : bool) (allow : bool) (fs : files) (n : nat) : list devent * files * exit :=
  let e := unit_env parse fs in
  let (h, x) := onboard A c chk ko avail show_ip prefix wo e allow fs n in
  let fs' := device_files others e fs h in
  (h, if succeeded x && moves then move fs' else fs', x).
