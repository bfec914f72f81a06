(* LowPkg.v -- codes of the package functions, of the tools and of key parsing *)
From Verif Require Import LowTac LowBase  HeaderModel HashModel MerkleModel VerifyModel PkgModel UtilModel KeystoreModel MbedModel CliModel ViewModel.

Definition low_fns {A B C} (f : A -> B * res C) : Prop := forall a, low (snd (f a)).
Lemma low_fns_fns : forall A B C (f : A -> B * res C) a, low_fns f -> low (snd (f a)). Proof. intros A B C f a H. apply H. Qed.
#[export] Hint Extern 2 (low (snd (?f _))) => (is_var f; solve [apply low_fns_fns; assumption]) : low.
#[export] Hint Extern 1 (low_fns _) => (intro; lows) : low.
#[export] Hint Extern 1 (low_fn _) => (intro; lows) : low.
Lemma low_pkg_open : forall x0 x1 x2, low (snd (pkg_open x0 x1 x2)).
Proof. intros. unfold pkg_open. lows. Qed.
#[export] Hint Resolve low_pkg_open : low.
Lemma low_hash_and_write : forall x0 x1, low (snd (hash_and_write x0 x1)).
Proof. intros. unfold hash_and_write. lows. Qed.
#[export] Hint Resolve low_hash_and_write : low.
Lemma low_copy_in_loop : forall x0 x1 x2 x3 x4, low (copy_in_loop x0 x1 x2 x3 x4).
Proof. intros x0 x1 x2 x3 x4. intros. gens x0. induction x0; intros; cbn [copy_in_loop]; lows. Qed.
#[export] Hint Resolve low_copy_in_loop : low.
Lemma low_pkg_add_file : forall x0 x1 x2 x3 x4, low (snd (pkg_add_file x0 x1 x2 x3 x4)).
Proof. intros. unfold pkg_add_file. lows. Qed.
#[export] Hint Resolve low_pkg_add_file : low.
Lemma low_pkg_add_key : forall x0 x1 x2 x3 x4, low (snd (pkg_add_key x0 x1 x2 x3 x4)).
Proof. intros. unfold pkg_add_key. lows. Qed.
#[export] Hint Resolve low_pkg_add_key : low.
Lemma low_copy_out_loop : forall x0 x1 x2 x3 x4, low (snd (copy_out_loop x0 x1 x2 x3 x4)).
Proof. intros x0 x1 x2 x3 x4. intros. gens x0. induction x0; intros; cbn [copy_out_loop]; lows. Qed.
#[export] Hint Resolve low_copy_out_loop : low.
Lemma low_pkg_extract_file : forall x0 x1, low (snd (pkg_extract_file x0 x1)).
Proof. intros. unfold pkg_extract_file. lows. Qed.
#[export] Hint Resolve low_pkg_extract_file : low.
Lemma low_remove_meta_loop : forall x0 x1 x2 x3, low (remove_meta_loop x0 x1 x2 x3).
Proof. intros x0 x1 x2 x3. intros. gens x1. induction x1; intros; cbn [remove_meta_loop]; lows. Qed.
#[export] Hint Resolve low_remove_meta_loop : low.
Lemma low_move_down_loop : forall x0 x1 x2 x3 x4, low (move_down_loop x0 x1 x2 x3 x4).
Proof. intros x0 x1 x2 x3 x4. intros. gens x0. induction x0; intros; cbn [move_down_loop]; lows. Qed.
#[export] Hint Resolve low_move_down_loop : low.
Lemma low_pkg_delete_part : forall x0 x1 x2 x3, low (snd (pkg_delete_part x0 x1 x2 x3)).
Proof. intros. unfold pkg_delete_part. lows. Qed.
#[export] Hint Resolve low_pkg_delete_part : low.
Lemma low_pkg_delete_all_parts : forall x0 x1 x2, low (snd (pkg_delete_all_parts x0 x1 x2)).
Proof. intros. unfold pkg_delete_all_parts. lows. Qed.
#[export] Hint Resolve low_pkg_delete_all_parts : low.
Lemma low_mem_io : low_io mem_io.
Proof. split; intros; cbn [mem_io io_wr io_rd]; lows. Qed.
#[export] Hint Resolve low_mem_io : low.
Lemma low_build_tree : forall x0 x1 x2, low (build_tree x0 x1 x2).
Proof. intros. unfold build_tree. lows. Qed.
#[export] Hint Resolve low_build_tree : low.
Lemma low_add_meta_bytes : forall x0 x1 x2 x3, low (snd (add_meta_bytes x0 x1 x2 x3)).
Proof. intros. unfold add_meta_bytes. lows. Qed.
#[export] Hint Resolve low_add_meta_bytes : low.
Lemma low_pkg_add_file_with_merkle_tree : forall x0 x1 x2 x3 x4 x5, low (snd (pkg_add_file_with_merkle_tree x0 x1 x2 x3 x4 x5)).
Proof. intros. unfold pkg_add_file_with_merkle_tree. lows. Qed.
#[export] Hint Resolve low_pkg_add_file_with_merkle_tree : low.
Lemma low_poke : forall x0 x1 x2, low (poke x0 x1 x2).
Proof. intros. unfold poke. lows. Qed.
#[export] Hint Resolve low_poke : low.
Lemma low_bin2hex_loop : forall x0 x1 x2, low (snd (bin2hex_loop x0 x1 x2)).
Proof. intros x0 x1 x2. intros. gens x0. induction x0; intros; cbn [bin2hex_loop]; lows. Qed.
#[export] Hint Resolve low_bin2hex_loop : low.
Lemma low_bin2hex : forall x0 x1, low (snd (bin2hex x0 x1)).
Proof. intros. unfold bin2hex. lows. Qed.
#[export] Hint Resolve low_bin2hex : low.
Lemma low_uuid_parse : forall x0, low (uuid_parse x0).
Proof. intros. unfold uuid_parse. lows. Qed.
#[export] Hint Resolve low_uuid_parse : low.
Lemma low_uuid_to_string : forall x0 x1, low (snd (uuid_to_string x0 x1)).
Proof. intros. unfold uuid_to_string. lows. Qed.
#[export] Hint Resolve low_uuid_to_string : low.
Lemma low_drop_result : forall x0, low (snd x0) -> low (snd (drop_result x0)).
Proof. intros. unfold drop_result. lows. Qed.
#[export] Hint Resolve low_drop_result : low.
Lemma low_with_bytes : forall x0 x1 x2, low x0 -> low_fns x2 -> low (snd (with_bytes x0 x1 x2)).
Proof. intros. unfold with_bytes. lows. Qed.
#[export] Hint Resolve low_with_bytes : low.
Lemma low_meta_to_string : forall x0 x1 x2, low (snd (meta_to_string x0 x1 x2)).
Proof. intros. unfold meta_to_string. lows. Qed.
#[export] Hint Resolve low_meta_to_string : low.
Lemma low_keystore_loop : forall x0 x1 x2 x3, low (keystore_loop x0 x1 x2 x3).
Proof. intros x0 x1 x2 x3. intros. gens x0. induction x0; intros; cbn [keystore_loop]; lows. Qed.
#[export] Hint Resolve low_keystore_loop : low.
Lemma low_keystore_get : forall x0 x1, low (snd (keystore_get x0 x1)).
Proof. intros. unfold keystore_get. lows. Qed.
#[export] Hint Resolve low_keystore_get : low.
Lemma low_keystore_load_key : forall sha parse f ks k, low_fn parse -> low (keystore_load_key sha parse f ks k None).
Proof. intros. unfold keystore_load_key. lows. Qed.
#[export] Hint Resolve low_keystore_load_key : low.
Lemma low_key_kind : forall c d x, (-30 <=? x) && (x <=? -1) = true -> low (key_kind c d x).
Proof. intros c d x H. apply andb_prop in H. assert (L : low (@Err Z x)) by (unfold low; lia). unfold key_kind. lows. Qed.
#[export] Hint Extern 1 (low (key_kind _ _ _)) => (apply low_key_kind; reflexivity) : low.
#[export] Hint Resolve low_key_kind : low.
Lemma low_mbed_load_public_key : forall x0 x1, low (mbed_load_public_key x0 x1).
Proof. intros. unfold mbed_load_public_key. lows. Qed.
#[export] Hint Resolve low_mbed_load_public_key : low.
Lemma low_mbed_load_private_key : forall x0 x1, low (mbed_load_private_key x0 x1).
Proof. intros. unfold mbed_load_private_key. lows. Qed.
#[export] Hint Resolve low_mbed_load_private_key : low.
Lemma low_mbed_parse_public_key : forall x0 x1, low (mbed_parse_public_key x0 x1).
Proof. intros. unfold mbed_parse_public_key. lows. Qed.
#[export] Hint Resolve low_mbed_parse_public_key : low.
Lemma low_cli_create : forall x0 x1 x2 x3, low (snd (cli_create x0 x1 x2 x3)).
Proof. intros. unfold cli_create. lows. Qed.
#[export] Hint Resolve low_cli_create : low.
Lemma low_with_package : forall x0 x1 x2, low_fns x2 -> low (snd (with_package x0 x1 x2)).
Proof. intros. unfold with_package. lows. Qed.
#[export] Hint Resolve low_with_package : low.
Lemma low_read_source : forall x0, low (read_source x0).
Proof. intros. unfold read_source. lows. Qed.
#[export] Hint Resolve low_read_source : low.
Lemma low_encode_input : forall x0 x1 x2, low (encode_input x0 x1 x2).
Proof. intros. unfold encode_input. lows. Qed.
#[export] Hint Resolve low_encode_input : low.
Lemma low_cli_add_meta : forall x0 x1 x2 x3 x4 x5, low (snd (cli_add_meta x0 x1 x2 x3 x4 x5)).
Proof. intros. unfold cli_add_meta. lows. Qed.
#[export] Hint Resolve low_cli_add_meta : low.
Lemma low_cli_add_part : forall x0 x1 x2 x3 x4, low (snd (cli_add_part x0 x1 x2 x3 x4)).
Proof. intros. unfold cli_add_part. lows. Qed.
#[export] Hint Resolve low_cli_add_part : low.
Lemma low_cli_add_merkle : forall x0 x1 x2 x3 x4 x5, low (snd (cli_add_merkle x0 x1 x2 x3 x4 x5)).
Proof. intros. unfold cli_add_merkle. lows. Qed.
#[export] Hint Resolve low_cli_add_merkle : low.
Lemma low_cli_add_key : forall x0 x1 x2 x3 x4, low (snd (cli_add_key x0 x1 x2 x3 x4)).
Proof. intros. unfold cli_add_key. lows. Qed.
#[export] Hint Resolve low_cli_add_key : low.
Lemma low_with_header : forall x0 x1, low_fns x1 -> low (snd (with_header x0 x1)).
Proof. intros. unfold with_header. lows. Qed.
#[export] Hint Resolve low_with_header : low.
Lemma low_store_string : forall x0 x1 x2, low (snd (store_string x0 x1 x2)).
Proof. intros. unfold store_string. lows. Qed.
#[export] Hint Resolve low_store_string : low.
Lemma low_set_string : forall x0 x1 x2, low (snd (set_string x0 x1 x2)).
Proof. intros. unfold set_string. lows. Qed.
#[export] Hint Resolve low_set_string : low.
Lemma low_set_fixed : forall x0 x1 x2 x3, low (snd (set_fixed x0 x1 x2 x3)).
Proof. intros. unfold set_fixed. lows. Qed.
#[export] Hint Resolve low_set_fixed : low.
Lemma low_cli_set_meta : forall x0 x1 x2 x3, low (snd (cli_set_meta x0 x1 x2 x3)).
Proof. intros. unfold cli_set_meta. lows. Qed.
#[export] Hint Resolve low_cli_set_meta : low.
Lemma low_cli_set_ids : forall x0 x1 x2, low (snd (cli_set_ids x0 x1 x2)).
Proof. intros. unfold cli_set_ids. lows. Qed.
#[export] Hint Resolve low_cli_set_ids : low.
Lemma low_cli_delete : forall x0 x1 x2 x3, low (snd (cli_delete x0 x1 x2 x3)).
Proof. intros. unfold cli_delete. lows. Qed.
#[export] Hint Resolve low_cli_delete : low.
Lemma low_cli_delete_all : forall x0 x1 x2, low (snd (cli_delete_all x0 x1 x2)).
Proof. intros. unfold cli_delete_all. lows. Qed.
#[export] Hint Resolve low_cli_delete_all : low.
Lemma low_cli_extract_part : forall x0 x1 x2, low (snd (cli_extract_part x0 x1 x2)).
Proof. intros. unfold cli_extract_part. lows. Qed.
#[export] Hint Resolve low_cli_extract_part : low.
Lemma low_cli_extract_meta : forall x0 x1 x2 x3, low (snd (cli_extract_meta x0 x1 x2 x3)).
Proof. intros. unfold cli_extract_meta. lows. Qed.
#[export] Hint Resolve low_cli_extract_meta : low.
Lemma low_cli_transport_add : forall x0 x1 x2 x3 x4, low (snd (cli_transport_add x0 x1 x2 x3 x4)).
Proof. intros. unfold cli_transport_add. lows. Qed.
#[export] Hint Resolve low_cli_transport_add : low.
Lemma low_cli_sign_raw : forall x0 x1 x2, low (snd (cli_sign_raw x0 x1 x2)).
Proof. intros. unfold cli_sign_raw. lows. Qed.
#[export] Hint Resolve low_cli_sign_raw : low.
Lemma low_cli_sign : forall (K : Type) x0 (x1 : sigscheme K) x2 x3 x4, low_sg x1 -> low x3 -> low (snd (cli_sign x0 x1 x2 x3 x4)).
Proof. intros. unfold cli_sign. lows. Qed.
#[export] Hint Resolve low_cli_sign : low.
Lemma low_cli_verify : forall (K : Type) x0 (x1 : sigscheme K) x2 x3 x4, low_sg x1 -> low_fn2 x3 -> low (snd (cli_verify x0 x1 x2 x3 x4)).
Proof. intros. unfold cli_verify. lows. Qed.
#[export] Hint Resolve low_cli_verify : low.
Lemma low_c_text : forall x0, low (c_text x0).
Proof. intros. unfold c_text. lows. Qed.
#[export] Hint Resolve low_c_text : low.
Lemma low_shown : forall x0 x1 x2, low (shown x0 x1 x2).
Proof. intros. unfold shown. lows. Qed.
#[export] Hint Resolve low_shown : low.
Lemma low_after : forall A ls (x : list cline * res A), low (snd x) -> low (snd (after ls x)).
Proof. intros A ls [a r]. exact (fun H => H). Qed.
#[export] Hint Resolve low_after : low.
Lemma low_cmp_metas1 : forall h1 h2 i l buf, low (snd (cmp_metas1 h1 h2 i l buf)).
Proof. intros h1 h2 i l. revert i. induction l; intros; cbn [cmp_metas1]; lows. Qed.
#[export] Hint Resolve low_cmp_metas1 : low.
(* a result that carries a return code *)
Definition low2 (r : res (res unit)) : Prop := match r with Ok x => low x | Err e => low (@Err unit e) | _ => True end.
Lemma low2_after : forall ls (x : list cline * res (res unit)), low2 (snd x) -> low2 (snd (after ls x)).
Proof. intros ls [a r]. exact (fun H => H). Qed.
Lemma low_cmp_metas2 : forall h1 h2 l i buf rc, low rc -> low2 (snd (cmp_metas2 h1 h2 i l buf rc)).
Proof.
  intros h1 h2. induction l as [| m r IH]; intros i buf rc H; cbn [cmp_metas2]; [exact H |].
  destruct (m_id m =? 0); [apply IH; exact H |]. destruct (get_meta h1 (m_id m) (m_ref m)); [apply IH; exact I | | |].
  all: pose proof (low_shown h2 i buf) as S; destruct (shown h2 i buf) as [[b s] | x | |]; [| exact S | exact I | exact I].
  all: apply low2_after, IH, low_err; reflexivity.
Qed.
#[export] Hint Resolve low_cmp_metas2 : low.
Lemma low_cmp_data : forall x0 x1 x2 x3 x4 x5, low (cmp_data x0 x1 x2 x3 x4 x5).
Proof. intros x0 x1 x2 x3 x4 x5. intros. gens x0. induction x0; intros; cbn [cmp_data]; lows. Qed.
#[export] Hint Resolve low_cmp_data : low.
Lemma low_cmp_parts1 : forall h1 h2 f1 f2 l rc, low rc -> low2 (snd (cmp_parts1 h1 h2 f1 f2 l rc)).
Proof.
  intros h1 h2 f1 f2. induction l as [| p r IH]; intros rc H; cbn [cmp_parts1]; [exact H |].
  destruct (p_id p =? 0); [apply IH; exact H |].
  destruct (get_part h2 (p_id p)) as [j | | |].
  2-4: apply low2_after, IH, low_err; reflexivity.
  destruct (nth_error (h_parts h2) j) as [p2 |]; [| exact I].
  destruct (part_offset h1 p <? 0); [apply low_err; reflexivity |].
  destruct (part_offset h2 p2 <? 0); [apply low_err; reflexivity |].
  match goal with |- low2 (snd (match ?x with _ => _ end)) => assert (S : low x) by auto with low; destruct x end; [| exact S | exact I | exact I].
  apply low2_after, IH. exact I.
Qed.
#[export] Hint Resolve low_cmp_parts1 : low.
Lemma low_cmp_parts2 : forall x0 x1 x2, low x2 -> low (snd (cmp_parts2 x0 x1 x2)).
Proof. intros x0 x1 x2. intros. gens x1. induction x1; intros; cbn [cmp_parts2]; lows. Qed.
#[export] Hint Resolve low_cmp_parts2 : low.
Lemma low_next : forall A (x : list cline * res A) k, low (snd x) -> (forall a, low (snd (k a))) -> low (snd (next x k)).
Proof. intros A [ls [a | e | |]] k H K; cbn [next snd] in *; [apply low_after, K | exact H | exact I | exact I]. Qed.
Lemma low_next2 : forall (x : list cline * res (res unit)) k, low2 (snd x) -> (forall a, low a -> low (snd (k a))) -> low (snd (next x k)).
Proof. intros [ls [a | e | |]] k H K; cbn [next snd] in *; [apply low_after, K, H | exact H | exact I | exact I]. Qed.
#[export] Hint Resolve low_next : low.
Lemma low_cli_compare : forall junk f1 f2, low (snd (cli_compare junk f1 f2)).
Proof.
  intros junk f1 f2. unfold cli_compare.
  destruct (negb (zlen (fread_at f1 0 HDR_SIZE) =? HDR_SIZE)); [apply low_err; reflexivity |].
  destruct (negb (zlen (fread_at f2 0 HDR_SIZE) =? HDR_SIZE)); [apply low_err; reflexivity |].
  match goal with |- low (snd (match ?x with _ => _ end)) => assert (S : low x) by lows; destruct x end; [| exact S | exact I | exact I].
  apply low_next; [auto with low | intros buf]. apply low_next2; [apply low_cmp_metas2; exact I | intros rc H].
  apply low_next2; [apply low_cmp_parts1; exact H | intros rc' H']. apply low_cmp_parts2. exact H'.
Qed.
#[export] Hint Resolve low_cli_compare : low.
Lemma low_show_meta_loop : forall x0 x1 x2 x3 x4 x5, low (snd (show_meta_loop x0 x1 x2 x3 x4 x5)).
Proof. intros x0 x1 x2 x3 x4 x5. intros. gens x4. induction x4; intros; cbn [show_meta_loop]; lows. Qed.
#[export] Hint Resolve low_show_meta_loop : low.
Lemma low_show_metas : forall x0 x1 x2 x3, low (snd (show_metas x0 x1 x2 x3)).
Proof. intros x0 x1 x2 x3. intros. gens x2. induction x2; intros; cbn [show_metas]; lows. Qed.
#[export] Hint Resolve low_show_metas : low.
Lemma low_show_update : forall x0 x1 x2, low (snd (show_update x0 x1 x2)).
Proof. intros. unfold show_update. lows. Qed.
#[export] Hint Resolve low_show_update : low.
Lemma low_hex_shown : forall x0 x1, low (hex_shown x0 x1).
Proof. intros. unfold hex_shown. lows. Qed.
#[export] Hint Resolve low_hex_shown : low.
Lemma low_show_all : forall x0 x1 x2 x3, low (snd (show_all x0 x1 x2 x3)).
Proof. intros. unfold show_all. lows. Qed.
#[export] Hint Resolve low_show_all : low.
Lemma low_cli_show : forall x0 x1 x2 x3 x4, low (snd (cli_show x0 x1 x2 x3 x4)).
Proof. intros. unfold cli_show. lows. Qed.
#[export] Hint Resolve low_cli_show : low.
Lemma low_gen_keys : forall x0 x1 x2, low_fn x0 -> low (snd (gen_keys x0 x1 x2)).
Proof. intros x0 x1 x2. intros. gens x2. induction x2; intros; cbn [gen_keys]; lows. Qed.
#[export] Hint Resolve low_gen_keys : low.
Lemma low_cli_generate : forall x0 x1, low_fn x0 -> low (snd (cli_generate x0 x1)).
Proof. intros. unfold cli_generate. lows. Qed.
#[export] Hint Resolve low_cli_generate : low.
