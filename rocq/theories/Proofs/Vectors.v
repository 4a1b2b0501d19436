(** Tests, not proofs: published vectors for the standard algorithms of Spec/, and the three
    fingerprints of /repo/mnemonikey_test.go:69-165 computed by the model with these algorithms.
    Argon2id with 512 MiB is out of reach of Coq; its value on the one input of that test was
    computed by a separate C program and is a constant here.  A failing test stops the build; no
    test leaves anything but [I] for the kernel. *)
From Coq Require Import String.
From Verif.Model Require Import GoBase Env Seed Mnemonikey.
From Verif.Spec Require Import Sha Aes Curve25519 EdVerify Argon2 RealEnv KeySpec GoRand GoFloat GoText.
From Verif.Proofs Require Import EnvInst.

Definition hex_digit (a : Ascii.ascii) : Z :=
  let n := Z.of_nat (Ascii.nat_of_ascii a) in
  if n <=? 57 then n - 48 else if n <=? 70 then n - 55 else n - 87.
Fixpoint hex (s : string) : bytes :=
  match s with
  | String a (String b s') => 16 * hex_digit a + hex_digit b :: hex s'
  | _ => []
  end.
Open Scope string_scope.
Open Scope Z_scope.
Ltac test t := assert_succeeds (assert t by (vm_compute; reflexivity)).

(** FIPS 180-4: "abc" and the empty message; SHA-256 of 56 bytes needs two blocks *)
Goal True.
test (std_sha1 (bs "abc") = hex "a9993e364706816aba3e25717850c26c9cd0d89d").
test (std_sha256 (bs "abc") = hex "ba7816bf8f01cfea414140de5dae2223b00361a396177a9cb410ff61f20015ad").
test (std_sha256 [] = hex "e3b0c44298fc1c149afbf4c8996fb92427ae41e4649b934ca495991b7852b855").
test (std_sha256 (bs "abcdbcdecdefdefgefghfghighijhijkijkljklmklmnlmnomnopnopq") =
      hex "248d6a61d20638b8e5c026930c3e6039a33ce45964ff2167f6ecedd419db06c1").
test (std_sha384 (bs "abc") =
      hex "cb00753f45a35e8bb5a03d699ac65007272c32ab0eded1631a8b605a43ff5bed8086072ba1e7cc2358baeca134c825a7").
test (std_sha512 (bs "abc") =
      hex "ddaf35a193617abacc417349ae20413112e6fa4e89a97ea20a9eeee64b55d39a2192992a274fc1a836ba3c23a3feebbd454d4423643ce80e2a9ac94fa54ca49f").
exact I. Qed.

(** RFC 5869, test case 1, expand step *)
Goal True.
test (std_hkdf_expand (hex "077709362c2e32df0ddc3f0dc47bba6390b6c73bb50f9c3122ec844ad7c2b3e5")
        (hex "f0f1f2f3f4f5f6f7f8f9") 42 =
      hex "3cb25f25faacd57a90434f64d0362f2a2d2d0a90cf1a5a4c5db02d56ecc4c5bf34007208d5b887185865").
exact I. Qed.

(** FIPS 197, appendices B and C; the tables are those of the field inverse and affine map *)
Goal True.
test (std_aes_encrypt (hex "2b7e151628aed2a6abf7158809cf4f3c") (hex "3243f6a8885a308d313198a2e0370734") =
      hex "3925841d02dc09fbdc118597196a0b32").
test (std_aes_encrypt (hex "000102030405060708090a0b0c0d0e0f") (hex "00112233445566778899aabbccddeeff") =
      hex "69c4e0d86a7b0430d8cdb78070b4c55a").
test (std_aes_decrypt (hex "000102030405060708090a0b0c0d0e0f") (hex "69c4e0d86a7b0430d8cdb78070b4c55a") =
      hex "00112233445566778899aabbccddeeff").
test (std_aes_encrypt (hex "000102030405060708090a0b0c0d0e0f101112131415161718191a1b1c1d1e1f")
        (hex "00112233445566778899aabbccddeeff") = hex "8ea2b7ca516745bfeafc49904b496089").
exact I. Qed.

(** RFC 7748, 5.2 (one iteration), and RFC 8032, 7.1, test 1 *)
Goal True.
test (std_x25519_base (hex "0900000000000000000000000000000000000000000000000000000000000000") =
      hex "422c8e7a6227d7bca1350b3e2bb7279f7897b87bb6854b783c60e80311ae3079").
test (std_ed25519_public (hex "9d61b19deffd5a60ba844af492ec2cc44449c5697b326919703bac031cae7f60") =
      hex "d75a980182b10ab7d54bfed3c964073a0ee172f3daa62325af021a68f707511a").
test (std_ed25519_sign (hex "9d61b19deffd5a60ba844af492ec2cc44449c5697b326919703bac031cae7f60d75a980182b10ab7d54bfed3c964073a0ee172f3daa62325af021a68f707511a") [] =
      hex "e5564300c360ac729086e2cc806e828a84877f1eb8e5d974d873e065224901555fb8821590a33bacc61e39701cf9b46bd25bf5f0595bbe24655141438e7a100b").
pose (pub := hex "d75a980182b10ab7d54bfed3c964073a0ee172f3daa62325af021a68f707511a").
pose (sig := hex "e5564300c360ac729086e2cc806e828a84877f1eb8e5d974d873e065224901555fb8821590a33bacc61e39701cf9b46bd25bf5f0595bbe24655141438e7a100b").
test (ed25519_verify_bytes pub [] sig = true).
test (std_ed25519_verify pub [0] sig = false).
exact I. Qed.

(** RFC 7693, appendix A, and RFC 9106, 5.3 (with secret and associated data) *)
Goal True.
test (blake2b 64 (bs "abc") =
      hex "ba80a53f981c4d0d6a2797b69f12f6e94c212f14685ac4b74b12bb6fdbffa2d17d87c5392aab792dc252d5de4533cc9518d38aa8dbf1925ab92386edd4009923").
test (argon2_general (repeat 3 8) (repeat 4 12) (repeat 1 32) (repeat 2 16) 3 32 4 32 =
      hex "0d640df58d78766c08c037a34a8b53c9d01ef0452d75b65eb52520e96b01e659").
exact I. Qed.

(** the first numbers of math/rand's Int63 with seed 1, as any Go program prints them *)
Definition int63s (n : nat) (seed : Z) : list Z :=
  snd (Nat.iter n (fun p => let (x, r) := uint64 (fst p) in (r, (snd p ++ [x mod 2 ^ 63])%list)) (new_source seed, [])).
Goal True.
test (int63s 3 1 = [5577006791947779410; 8674665223082153551; 6129484611666145821]).
test (std_seconds_u32 (90 * 10 ^ 9 + 999999999) = 90).
test (std_trim [0xE2; 0x80; 0x80; 32; 97; 32; 98; 0xC2; 0x85; 10] = [97; 32; 98]).
test (std_lower [0xC4; 0xB0; 0xE2; 0x84; 0xAA; 65; 0xC3; 0x89; 0xFF] = [105; 107; 97; 0xC3; 0xA9; 0xEF; 0xBF; 0xBD]).
exact I. Qed.

(** mnemonikey_test.go *)
Definition test_argon (pw salt : bytes) (t m p n : Z) : bytes :=
  if bytes_eqb pw (hex "0194fdc2fa2ffcc041d3ff12045b73c8") && bytes_eqb salt (num_be 4 1673800000) &&
     (t =? 4) && (m =? 524288) && (p =? 2) && (n =? 32)
  then hex "2063c35e99cc3e11434e34282f75ca4c8896c0f574e2ed52b08fa4f09cc81cd8" else [].
Definition test_env : Env :=
  let E := std_env toy_env in
  {| wl_words := wl_words E; wl_search := wl_search E; unicode_lower := unicode_lower E; trim_space := trim_space E;
     argon2id := test_argon; aes_encrypt := aes_encrypt E; aes_decrypt := aes_decrypt E; sha1 := sha1 E;
     sha256 := sha256 E; sha384 := sha384 E; sha512 := sha512 E; hkdf_expand_sha256 := hkdf_expand_sha256 E;
     ed25519_public := ed25519_public E; ed25519_sign := ed25519_sign E; x25519_base := x25519_base E;
     rand_int31n := rand_int31n E; seconds_u32 := seconds_u32 E; armor_encode := armor_encode E |}.
Definition test_key (index : Z) : res (bytes * option bytes) :=
  let* m := mnk_new test_env (mk_seed 0 0x0194fdc2fa2ffcc041d3ff12045b73c8) (1673800000 * ns)
              (Some (mk_opts (bs "username") (bs "user@domain.com") 0 index 0 0 (Some [bs "encryption"]))) in
  Ok (mnk_fingerprint test_env m, mnk_subkey_fingerprint test_env m (bs "encryption")).
Goal True.
test (test_key 0 = Ok (hex "149EE476771DBD4E19D1FB0FC1A9CE93575CA7FA", Some (hex "C41193904F9CAE4D48E2849D14CF1F4A2D4B2A41"))).
test (test_key 1 = Ok (hex "149EE476771DBD4E19D1FB0FC1A9CE93575CA7FA", Some (hex "DE6EA42E75B134FFD28E5C9AD2001406AECE41EA"))).
exact I. Qed.
