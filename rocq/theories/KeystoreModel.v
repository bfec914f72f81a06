(* KeystoreModel.v -- lib/keystore.c, lib/keystore_load_from_file.c.
   Definitions only. *)
From Verif Require Import Base HeaderModel CrcModel HashModel VerifyModel PkgModel.

(* include/bpak/key.h:13-19; [k_data]: the [size] bytes of data[] *)
Record key := mkKey { k_kind : Z; k_id : Z; k_data : bytes }.
Definition with_id (k : key) (id : Z) : key := mkKey (k_kind k) id (k_data k).
(* include/bpak/keystore.h:13-18; [ks_keys]: the pointers in keys[], None is
   NULL *)
Record keystore := mkKs { ks_id : Z; ks_count : Z; ks_verified : bool; ks_keys : list (option key) }.

(* lib/keystore.c:21-26; [i]: loop counter.  Result: index of the key *)
Fixpoint keystore_loop (n : nat) (id : Z) (i : nat) (l : list (option key)) : res nat :=
  match n with
  | O => Err E_KEY_NOT_FOUND
  | S n' =>
      match l with
      | Some k :: r => if k_id k =? id then Ok i else keystore_loop n' id (S i) r
      | _ => UB                      (* NULL, or past the end of keys[] *)
      end
  end.
(* lib/keystore.c:13-29.  First component: *k afterwards, as an index *)
Definition keystore_get (ks : keystore) (id : Z) : option nat * res unit :=
  if negb (ks_verified ks) then (None, Err E_FAILED)
  else match keystore_loop (Z.to_nat (ks_count ks)) id 0 (ks_keys ks) with
       | Ok i => (Some i, Ok tt)
       | Err e => (None, Err e)
       | UB => (None, UB)
       | Stuck => (None, Stuck)
       end.

Definition KEY_BUFFER : Z := 512.
(* lib/keystore_load_from_file.c:17-84.  [f]: content of the file; fopen
   failures are not modelled.  [check]: the check_header callback with its
   user pointer, None for NULL; it returns 0 for success.  [parse]:
   bpak_crypto_parse_public_key.  *output is the key in the result *)
Definition keystore_load_key (sha : hashfn) (parse : bytes -> res key) (f : bytes) (keystore_id key_id : Z)
    (check : option (header -> Z)) : res key :=
  do p <- snd (pkg_open sha false f);
  let h := pk_header p in
  do _ <- match check with
          | None => Ok tt
          | Some c => if c h =? 0 then Ok tt else Err (c h)
          end;
  do i <- get_meta h ID_KEYSTORE_PROVIDER_ID 0;
  do b <- meta_read h i 0 4;
  if negb (unle b =? keystore_id) then Err E_KEYSTORE_ID_MISMATCH
  else
    do j <- get_part h key_id;
    match nth_error (h_parts h) j with
    | None => UB
    | Some q =>
        let len := part_size_wo_pad q in
        if part_offset h q <? 0 then Err E_SEEK_ERROR
        else
          let d := fread_at f (part_offset h q) len in
          if zlen d >? KEY_BUFFER then UB     (* fread past the end of key_buffer[512] *)
          else if negb (zlen d =? len) then Err E_READ_ERROR
          else do k <- parse d; Ok (with_id k key_id)
    end.
