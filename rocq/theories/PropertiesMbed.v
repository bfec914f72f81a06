(* PropertiesMbed.v -- C63: public keys through bpak *)
From Coq Require Import Lia String.
From Verif Require Import Base BaseLemmas HeaderModel HeaderSpec CrcModel HashModel VerifyModel VerifySpec PkgModel PkgSpec UtilSpec CliSpec KeystoreModel KeystoreProofs
  ViewModel ViewSpec ViewWitness ViewGen MerkleApi MbedModel MbedSpec MbedProofs.
Local Open Scope Z_scope.
Local Open Scope list_scope.

(* the full claim: every supported public key can be read from a file, added to
   a package, loaded from it and generated as source.  It holds of EC keys except
   for adding; RSA keys can be read from files and not used after that *)
Theorem C63_key_files : forall parse file k, key_ok k -> parse file = Some (ctx_of k) ->
  (supported k -> mbed_load_public_key parse file = Ok (mkKey (kind_of k) 0 (spki k))) /\
  (zlen (spki k) <= 1024 -> match k with RsaKey _ _ => key_bits k <> 4096 | _ => False end ->
   mbed_load_public_key parse file = Err E_UNSUPPORTED_KEY).
Proof.
  intros parse file k O P. split; [intros S; now apply load_public_ok|].
  intros L N. destruct k as [|n e]; [contradiction|]. unfold mbed_load_public_key. rewrite P. unfold write_der. cbn [ctx_of pk_der].
  destruct (Z.leb_spec (zlen (spki (RsaKey n e))) 1024); [|lia]. change (mkPk _ _ _) with (ctx_of (RsaKey n e)). rewrite kind_rsa by exact N. reflexivity.
Qed.
Print Assumptions C63_key_files.
(* an EC key in a package is the key that is loaded *)
Theorem C63_ec_keys_partial : forall sha parse p ms (a : list (parth * bytes)) q c x y pad (b : list (parth * bytes)) v,
  let k := EcKey c x y in
  package p ms (a ++ (q, spki k ++ zeros pad) :: b) -> Z.testbit (p_flags q) 1 = false -> p_size q = zlen (spki k) ->
  key_ok k -> reads parse k -> In (mkEntry ID_KEYSTORE_PROVIDER_ID 0 v) ms -> zlen v = 4 ->
  keystore_load_key sha (mbed_parse_public_key parse) (pk_file p) (unle v) (p_id q) None = Ok (mkKey (kind_of k) (p_id q) (spki k)).
Proof.
  intros sha parse p ms a q c x y pad b v k (H & V & M) T S O R I L.
  destruct (load_stored sha (mbed_parse_public_key parse) p a q (spki k) pad b ms v None H T S V M I L) as [A _]; [intros ? X; discriminate X|].
  subst k. pose proof (supported_len _ O Logic.I) as [_ Lk]. cbv iota beta in Lk. rewrite A by lia. rewrite (parse_ec parse c x y O R). reflexivity.
Qed.
Print Assumptions C63_ec_keys_partial.
(* no RSA key that bpak reads from a file can be loaded from a package: the
   buffer for the part (512 bytes) overflows, and so would the buffer for the
   parsed key *)
Theorem C63_rsa_keys_refuted : forall sha parse p ms (a : list (parth * bytes)) q n e pad (b : list (parth * bytes)) v,
  let k := RsaKey n e in
  package p ms (a ++ (q, spki k ++ zeros pad) :: b) -> Z.testbit (p_flags q) 1 = false -> p_size q = zlen (spki k) ->
  key_ok k -> supported k -> reads parse k -> In (mkEntry ID_KEYSTORE_PROVIDER_ID 0 v) ms -> zlen v = 4 ->
  mbed_load_public_key parse (spki k) = Ok (mkKey KEY_PUB_RSA4096 0 (spki k)) /\
  keystore_load_key sha (mbed_parse_public_key parse) (pk_file p) (unle v) (p_id q) None = UB /\
  mbed_parse_public_key parse (spki k) = Err E_KEY_DECODE.
Proof.
  intros sha parse p ms a q n e pad b v k (H & V & M) T S O Su R I L.
  split; [exact (load_public_ok parse (spki k) k O Su R)|]. split; [|exact (parse_rsa parse n e O R (proj2 Su))].
  destruct (load_stored sha (mbed_parse_public_key parse) p a q (spki k) pad b ms v None H T S V M I L) as [_ A]; [intros ? X; discriminate X|].
  subst k. pose proof (supported_len _ O Su) as [_ Lk]. cbv iota beta in Lk. apply A. lia.
Qed.
Print Assumptions C63_rsa_keys_refuted.
(* adding a supported key never succeeds without reading behind the padding variable (C45) *)
Theorem C63_add_key_refuted : forall sha p k name flags, key_ok k -> supported k ->
  snd (pkg_add_key sha p (spki k) name flags) = UB \/ exists e, snd (pkg_add_key sha p (spki k) name flags) = Err e.
Proof.
  intros sha p k name flags O S. pose proof (supported_len k O S) as [L1 L2]. unfold pkg_add_key.
  assert (P : (pad_for (zlen (spki k)) >? 1) = true).
  { unfold pad_for, PART_ALIGN. destruct k as [c x y|n e].
    - rewrite (ec_len c x y O). destruct c; reflexivity.
    - destruct (Z.eqb_spec (zlen (spki (RsaKey n e)) mod 512) 0) as [E|E]; [lia|]. apply Z.gtb_lt. lia. }
  destruct (add_part (pk_header p) (bpak_id name)) as [h1 [i|e| |]] eqn:A; cbn [snd]; eauto.
  - cbv zeta. rewrite P. destruct (s64 _ <? 0); cbn [snd]; eauto.
  - exfalso. revert A. unfold add_part. destruct (add_part_loop (bpak_id name) (h_parts (pk_header p))) as [ps r] eqn:E. intros X. injection X as _ ->.
    clear - E. revert ps E. induction (h_parts (pk_header p)) as [|q l IH]; intros ps E; cbn [add_part_loop] in E; [discriminate|].
    destruct (p_id q =? 0); [discriminate|]. destruct (p_id q =? bpak_id name); [discriminate|].
    destruct (add_part_loop (bpak_id name) l) as [r' x]. injection E as _ E. destruct x; try discriminate. eapply IH; eauto.
Qed.
Print Assumptions C63_add_key_refuted.
(* the generated source of a package of EC keys is complete, and says the right
   sizes *)
Theorem C63_generate_ec_partial : forall parse p ms (es : list (parth * bytes)) v,
  package p ms es -> plain es -> offsets_from 4096 es ->
  Forall (fun e => exists c x y, key_ok (EcKey c x y) /\ reads parse (EcKey c x y) /\ part_data e = spki (EcKey c x y)) es ->
  find (selects id_package (Some 0)) ms <> None -> find (selects id_provider (Some 0)) ms = Some v -> 4 <= zlen (e_val v) ->
  exists gs, cli_generate (mbed_parse_public_key parse) (pk_file p) = (gs, Ok (unle (ztake 4 (e_val v)))) /\
    Forall2 (fun e g => gk_id g = p_id (fst e) /\ gk_data g = part_data e /\ gk_size g = zlen (gk_data g) /\ 2 <= gk_kind g <= 4) es gs.
Proof.
  intros parse p ms es v P PL OF F A B L.
  assert (PS : forall e, In e es -> zlen (part_data e) = p_size (fst e)).
  { intros e He. destruct (in_split _ _ He) as (a & b & E). exact (proj2 (proj2 (gen_read (mbed_parse_public_key parse) p es (proj1 P) PL OF a e b E))). }
  destruct (generate_ok (mbed_parse_public_key parse) p ms es v P PL OF) as (gs & G & K); auto.
  - apply Forall_forall. intros e He. rewrite Forall_forall in F. destruct (F e He) as (c & x & y & O & R & D).
    exists (mkKey (kind_of (EcKey c x y)) 0 (spki (EcKey c x y))). rewrite D. split; [exact (parse_ec parse c x y O R)|]. cbn [k_kind].
    split; [destruct c; vm_compute; split; discriminate|]. rewrite <- (PS e He), D, (ec_len c x y O). destruct c; lia.
  - exists gs. split; [exact G|]. clear G A B P PL OF. induction K as [|e g l l' R _ IH]; [constructor|]. inversion F as [|? ? F1 F2]; subst.
    constructor; [|apply IH; auto; intros; apply PS; now right].
    + destruct F1 as (c & x & y & O & Rd & D). destruct R as (k & R1 & R2 & R3 & R4 & R5). rewrite D, (parse_ec parse c x y O Rd) in R1.
      injection R1 as <-. cbn [k_kind k_data] in *. rewrite R4, D. split; [exact R2|]. split; [reflexivity|]. split.
      * rewrite R5, <- (PS e ltac:(now left)), D. reflexivity.
      * rewrite R3. destruct c; vm_compute; split; discriminate.
Qed.
Print Assumptions C63_generate_ec_partial.
(* private keys: the same kinds, 4 higher *)
Theorem C63_private_key_files : forall parse file k (der : bytes), supported k -> parse file = Some (mkPk (key_name k) (key_bits k) der) ->
  mbed_load_private_key parse file = if zlen der <=? 4096 then Ok (mkKey (4 + kind_of k) 0 der) else Err E_KEY_DECODE.
Proof.
  intros parse file k der S P. unfold mbed_load_private_key, write_der. rewrite P. cbn [pk_der]. destruct (zlen der <=? 4096); [|reflexivity].
  replace (key_kind (mkPk (key_name k) (key_bits k) der) 4 E_KEY_DECODE) with (key_kind (ctx_of k) 4 E_KEY_DECODE) by reflexivity.
  rewrite kind_supported by exact S. reflexivity.
Qed.
Print Assumptions C63_private_key_files.
Definition mb_ec : pubkey := EcKey P384 (repeat 17 48) (repeat 34 48).
Definition mb_rsa : pubkey := RsaKey (2 ^ 4095 + 1) 65537.
Definition mb_parse (d : bytes) : option pkctx := if bytes_eqb d (spki mb_ec) then Some (ctx_of mb_ec) else if bytes_eqb d (spki mb_rsa) then Some (ctx_of mb_rsa) else None.
Definition mb_ms : list mentry := [vw_uuid; mkEntry ID_KEYSTORE_PROVIDER_ID 0 (le 4 4660)].
Definition mb_part (id off : Z) (k : pubkey) : parth * bytes :=
  (mkPart id (zlen (spki k)) off 0 (padding (zlen (spki k))) 0 0, spki k ++ zeros (padding (zlen (spki k)))).
Example C63_instance :
  let es := [mb_part 5 4096 mb_ec; mb_part 6 4608 mb_rsa] in
  package (vw_pkg mb_ms es) mb_ms es /\ key_ok mb_ec /\ reads mb_parse mb_ec /\ key_ok mb_rsa /\ supported mb_rsa /\ reads mb_parse mb_rsa /\
  zlen (spki mb_ec) = 120 /\ zlen (spki mb_rsa) = 550 /\
  ztake 26 (spki mb_ec) = [48; 118; 48; 16; 6; 7; 42; 134; 72; 206; 61; 2; 1; 6; 5; 43; 129; 4; 0; 34; 3; 98; 0; 4; 17; 17] /\
  offsets_from 4096 [mb_part 5 4096 mb_ec] /\ part_data (mb_part 5 4096 mb_ec) = spki mb_ec /\ package (vw_pkg mb_ms [mb_part 5 4096 mb_ec]) mb_ms [mb_part 5 4096 mb_ec] /\
  find (selects id_package (Some 0)) mb_ms <> None /\ find (selects id_provider (Some 0)) mb_ms <> None.
Proof.
  cbv zeta. split; [vw|]. split; [vm_compute; auto|]. split; [vm_compute; reflexivity|]. split; [vm_compute; auto|]. split; [vm_compute; auto|].
  split; [vm_compute; reflexivity|]. split; [vm_compute; reflexivity|]. split; [vm_compute; reflexivity|]. split; [vm_compute; reflexivity|].
  split; [vm_compute; auto|]. split; [vm_compute; reflexivity|]. split; [vw|]. split; vm_compute; discriminate.
Qed.
