(** Properties C28 to C35: storage layouts. *)
From Coq Require Import Ascii ZArith Lia.
From stdpp Require Import base list strings gmap.
From Verif Require Import GoStr PathModel Utf8Model Utf8Proofs LayoutModel LayoutSpec LayoutProofs LayoutProofs2 LayoutProofs3.

(** A hash function with digests of four bytes for the examples: the length, the sum and the weighted sum of
    the bytes, and the first byte. *)
Definition toy_hash (s : string) : string :=
  let l := N_of_ascii <$> list_ascii_of_string s in
  string_of_list_ascii (byte <$> [N.of_nat (length l) mod 256; foldr N.add 0 l mod 256;
    foldl (λ a n, a * 3 + n) 7 l mod 256; default 0 (head l)]%N).
(** Digests of sixteen bytes. *)
Definition toy_hash16 (s : string) : string :=
  let h := toy_hash s in h +:+ h +:+ h +:+ h.
Definition toy_hashes : hashes := λ alg,
  if decide (alg = "toy") then Some toy_hash else if decide (alg = "sha512") then Some toy_hash16 else None.

(** * C28: distinct identifiers, layout 0003 *)

(** Full statement: for all identifiers.  Missing: identifiers with a byte below 16, whose escape has one digit
    only; see the refutation.  The digest has to separate only identifiers of more than 33 bytes. *)
Theorem C28_injective_partial h c a b p :
  bytes_from 16 a → bytes_from 16 b →
  (33 < String.length a → 33 < String.length b → h a = h b → a = b) →
  build3 h c a = POk p → build3 h c b = POk p → a = b.
Proof. apply injective3. Qed.
Example C28_example :
  bytes_from 16 "ark:/1/a" ∧ bytes_from 16 "ark:/1/b" ∧
  build3 toy_hash (Conf3 "toy" 2 2) "ark:/1/a" = POk "08/68/ark%3a%2f1%2fa" ∧
  build3 toy_hash (Conf3 "toy" 2 2) "ark:/1/b" = POk "08/69/ark%3a%2f1%2fb".
Proof.
  split_and!; [| |by vm_compute..]; intros x Hx; cbn in Hx;
    repeat (apply elem_of_cons in Hx as [-> | Hx]; [by vm_compute|]); by apply elem_of_nil in Hx.
Qed.
Print Assumptions C28_injective_partial.
(** A form feed and the digit 3, a line feed and the digit 4, against the letter a with two dots. *)
Definition id_control : string := encode [12; 51; 10; 52]%N.
Definition id_umlaut : string := encode [228]%N.
Theorem C28_injective_refuted :
  ∃ a b p, a ≠ b ∧ valid_utf8 a ∧ valid_utf8 b ∧ ∀ h, build3 h (Conf3 "toy" 0 0) a = POk p ∧ build3 h (Conf3 "toy" 0 0) b = POk p.
Proof.
  exists id_control, id_umlaut, "%c3%a4". split; [by vm_compute|].
  split; [exists [12; 51; 10; 52]%N; split; [|done]; repeat (apply Forall_cons; split; [left; lia|]); by apply Forall_nil|].
  split; [exists [228]%N; split; [|done]; apply Forall_singleton; left; lia|].
  intros h. split; reflexivity.
Qed.
Print Assumptions C28_injective_refuted.

(** * C29: distinct identifiers, layout 0004 *)

Theorem C29_injective h c a b p : build4 h c a = POk p → build4 h c b = POk p → h a = h b.
Proof. apply distinct4. Qed.
(** A path is computed whenever the tuples fit the digest. *)
Theorem C29_defined h c a : c4_t c * c4_n c ≤ 2 * String.length (h a) → ∃ p, build4 h c a = POk p.
Proof.
  intros H. unfold build4. rewrite hex_bytes_length. destruct (Nat.ltb_spec (2 * String.length (h a)) (c4_t c * c4_n c)); [lia|].
  by eexists.
Qed.
Example C29_example :
  build4 toy_hash (Conf4 "toy" 2 3 true) "abc" = POk "03/26/af/61" ∧
  build4 toy_hash (Conf4 "toy" 2 3 false) "abd" = POk "03/27/b0/0327b061" ∧
  toy_hash "abc" ≠ toy_hash "abd".
Proof. by vm_compute. Qed.
Print Assumptions C29_injective.
Print Assumptions C29_defined.

(** * C30: no nesting, layouts 0003 and 0004 *)

Theorem C30_hash_and_id_not_nested h c a b p q : build3 h c a = POk p → build3 h c b = POk q → ¬ inside p q.
Proof. apply no_nesting3. Qed.
Theorem C30_hashed_not_nested h c a b p q : build4 h c a = POk p → build4 h c b = POk q → ¬ inside p q.
Proof. apply no_nesting4. Qed.
(** Full statement: for every identifier.  Missing: the empty identifier. *)
Theorem C30_hash_and_id_plain_partial hs c0 c h a p : new3 hs c0 = Some c → a ≠ "" →
  build3 h c a = POk p → ∃ es, path_of es p ∧ Forall plain_name es ∧ length es = S (c3_n c).
Proof.
  intros Hc Ha. apply plain3; [done|]. unfold new3 in Hc.
  destruct (cap_tuples (c3_t c0) (c3_n c0)) as [t n] eqn:E. destruct (hs _); [|done]. injection Hc as <-. cbn.
  by eapply new_tuples_zero.
Qed.
(** Full statement: for every configuration.  Missing: short object roots when the tuples use up the digest. *)
Theorem C30_hashed_plain_partial hs c0 c h a p : new4 hs c0 = Some c → h a ≠ "" →
  (c4_short c = true → c4_n c * c4_t c ≠ 2 * String.length (h a)) →
  build4 h c a = POk p → ∃ es, path_of es p ∧ Forall plain_name es ∧ length es = S (c4_n c).
Proof.
  intros Hc Ha Hs. apply plain4; [|done|done]. unfold new4 in Hc.
  destruct (cap_tuples (c4_t c0) (c4_n c0)) as [t n] eqn:E. destruct (hs _); [|done]. injection Hc as <-. cbn.
  by eapply new_tuples_zero.
Qed.
Example C30_example :
  build3 toy_hash (Conf3 "toy" 2 2) ".." = POk "02/5c/%2e%2e" ∧ build3 toy_hash (Conf3 "toy" 2 2) "a" = POk "01/61/a" ∧
  new3 toy_hashes (Conf3 "toy" 2 2) = Some (Conf3 "toy" 2 2) ∧
  build4 toy_hash (Conf4 "toy" 3 2 true) "a" = POk "016/176/61" ∧ build4 toy_hash (Conf4 "toy" 3 2 true) "b" = POk "016/277/62" ∧
  new4 toy_hashes (Conf4 "toy" 3 2 true) = Some (Conf4 "toy" 3 2 true).
Proof. by vm_compute. Qed.
Print Assumptions C30_hash_and_id_not_nested.
Print Assumptions C30_hashed_not_nested.
Print Assumptions C30_hash_and_id_plain_partial.
Print Assumptions C30_hashed_plain_partial.
Theorem C30_empty_identifier_refuted :
  ∃ hs c p, new3 hs c = Some c ∧ build3 toy_hash c "" = POk p ∧ ¬ ∃ es, path_of es p ∧ Forall plain_name es.
Proof.
  exists toy_hashes, (Conf3 "toy" 2 2), "00/00/". split; [by vm_compute|]. split; [by vm_compute|].
  apply not_plain. vm_compute. do 2 apply elem_of_list_further. apply elem_of_list_here.
Qed.
(** Digests of sixteen bytes (md5), sixteen tuples of two digits and a short object root: the path ends with a slash. *)
Theorem C30_short_root_refuted :
  ∃ hs c a p, new4 hs c = Some c ∧ a ≠ "" ∧ build4 toy_hash16 c a = POk p ∧ ¬ ∃ es, path_of es p ∧ Forall plain_name es.
Proof.
  exists toy_hashes, (Conf4 "sha512" 2 16 true), "a", "01/61/76/61/01/61/76/61/01/61/76/61/01/61/76/61/".
  split; [by vm_compute|]. split; [done|]. split; [by vm_compute|].
  apply not_plain. vm_compute. do 16 apply elem_of_list_further. apply elem_of_list_here.
Qed.
Print Assumptions C30_empty_identifier_refuted.
Print Assumptions C30_short_root_refuted.

(** * C31: nesting, other layouts *)

(** Layouts that use the identifier as it is: nested exactly if the identifiers are. *)
Theorem C31_flat_partial hs a b p q :
  build hs Flat a = POk p → build hs Flat b = POk q → (p = q ↔ a = b) ∧ (inside p q ↔ inside a b).
Proof. by intros [= <-] [= <-]. Qed.
(** Flat-omit-prefix: the path is exactly the rest behind the last delimiter, so there is no nesting for rests without slash, and
    objects share a path exactly if they share this rest. *)
Theorem C31_omit_prefix_partial d id p : build6 d id = POk p ↔ omit_prefix d id p.
Proof. apply build6_iff. Qed.
Theorem C31_omit_prefix_not_nested_partial d a b p q :
  build6 d a = POk p → build6 d b = POk q → "/"%char ∉ list_ascii_of_string b → ¬ inside p q.
Proof.
  intros _ Hb Hs Hin%inside_slash. apply build6_iff in Hb. apply Hs.
  apply str_mem_spec in Hin. destruct Hb as [[[x ->] _]|[_ ->]]; [|done].
  rewrite !list_ascii_app, !elem_of_app. by right; right.
Qed.
(** Pairtree: when two encoded identifiers are nested. *)
Theorem C31_pairtree_nested_partial c a b p q : 0 < cp_shorty c → id_encode a ≠ "" →
  buildP c a = POk p → buildP c b = POk q →
  inside p q ↔ ∃ x, x ≠ "" ∧ id_encode b = id_encode a +:+ x ∧ Nat.divide (cp_shorty c) (String.length (id_encode a)).
Proof. apply pairtree_nested. Qed.
Theorem C31_pairtree_injective_partial c a b p : 0 < cp_shorty c → pt_safe a → pt_safe b →
  buildP c a = POk p → buildP c b = POk p → a = b.
Proof. intros Hk Ha Hb H1 H2. apply id_encode_inj; [done|done|]. by eapply pairtree_same. Qed.
(** Direct-clean in UTF mode: nested only if the names of one identifier continue those of the other (or a fallback path
    is involved). *)
Theorem C31_direct_clean_partial h c a b p q : valid_utf8 a → valid_utf8 b → cd_utf c = true →
  buildD h c a = POk p → buildD h c b = POk q → inside p q →
  (∃ l, l ≠ [] ∧ names b = names a ++ l) ∨ (∃ x, fallback h c x = POk p ∨ fallback h c x = POk q).
Proof. intros (l1 & H1 & ->) (l2 & H2 & ->). by apply buildD_nested. Qed.
Definition utf_conf : confD := ConfD 32000 127 [95]%N [32]%N true "toy" "fallback" 1 1 0 0.
Example C31_example :
  build6 ":" "x:y:a" = POk "a" ∧
  buildP (ConfP "" "" 2 "toy") "ark:/1" = POk "ar/k+/=1" ∧ pt_safe "ark:/1" ∧
  buildD toy_hash utf_conf "a:/b" = POk "a=u003A/b".
Proof.
  split_and!; [by vm_compute|by vm_compute| |by vm_compute].
  intros x Hx; cbn in Hx;
    repeat (apply elem_of_cons in Hx as [-> | Hx]; [by vm_compute|]); by apply elem_of_nil in Hx.
Qed.
Print Assumptions C31_flat_partial.
Print Assumptions C31_omit_prefix_partial.
Print Assumptions C31_omit_prefix_not_nested_partial.
Print Assumptions C31_pairtree_nested_partial.
Print Assumptions C31_pairtree_injective_partial.
Print Assumptions C31_direct_clean_partial.
Theorem C31_flat_nested_refuted : ∃ hs a b p q, a ≠ b ∧ build hs Flat a = POk p ∧ build hs Flat b = POk q ∧ inside p q.
Proof. exists toy_hashes, "a", "a/b", "a", "a/b". split_and!; [done..|]. by exists "b". Qed.
Theorem C31_omit_prefix_same_refuted : ∃ d a b p, a ≠ b ∧ build6 d a = POk p ∧ build6 d b = POk p.
Proof. exists ":", "x:a", "y:a", "a". by vm_compute. Qed.
Theorem C31_pairtree_nested_refuted : ∃ c a b p q, a ≠ b ∧ buildP c a = POk p ∧ buildP c b = POk q ∧ inside p q.
Proof. exists (ConfP "" "" 2 "toy"), "ab", "abcd", "ab", "ab/^6/3d". split_and!; [done|by vm_compute..|]. by exists "^6/3d". Qed.
Theorem C31_pairtree_same_refuted : ∃ c a b p, a ≠ b ∧ buildP c a = POk p ∧ buildP c b = POk p.
Proof. exists (ConfP "" "" 2 "toy"), "a.b", "a,b", "a,/b". by vm_compute. Qed.
Theorem C31_direct_clean_nested_refuted : ∃ h c a b p q, a ≠ b ∧ buildD h c a = POk p ∧ buildD h c b = POk q ∧ inside p q.
Proof. exists toy_hash, utf_conf, "a", "a/b", "a", "a/b". split_and!; [done|by vm_compute..|]. by exists "b". Qed.
Print Assumptions C31_flat_nested_refuted.
Print Assumptions C31_omit_prefix_same_refuted.
Print Assumptions C31_pairtree_nested_refuted.
Print Assumptions C31_pairtree_same_refuted.
Print Assumptions C31_direct_clean_nested_refuted.

(** * C32: layout 0007 *)

(** Full statement: for every configuration with positive numbers.  Missing: configurations whose zero padding is neither left nor
    right, and delimiters that are empty; the identifier part must be valid UTF-8 (it is only looked at when reversing). *)
Theorem C32_follows_partial c id part l :
  0 < c7_t c → (c7_pad c = "right" ∨ c7_pad c = "left") → c7_delim c ≠ "" →
  omit_prefix (c7_delim c) id part → Forall scalar l → part = encode l →
  ∃ es rest p, build7 c id = POk p ∧ path_of (es ++ [part]) p ∧
    length es = c7_n c ∧ Forall (λ e, String.length e = c7_t c) es ∧
    cat es +:+ rest = encode (padded (bool_decide (c7_pad c = "left")) (c7_rev c) (c7_t c * c7_n c) l).
Proof. apply build7_part. Qed.
(** Exactly when it crashes. *)
Theorem C32_crash_iff_partial c id part : c7_delim c ≠ "" → omit_prefix (c7_delim c) id part →
  build7 c id = PPanic ↔ c7_t c = 0 ∨ (c7_pad c ≠ "right" ∧ c7_pad c ≠ "left" ∧ 0 < c7_n c ∧ part ≠ "").
Proof. apply build7_panic_part. Qed.
Example C32_example :
  build7 (Conf7 ":" 4 2 "left" true) "namespace:12887296" = POk "6927/8821/12887296" ∧
  omit_prefix ":" "namespace:12887296" "12887296" ∧
  build7 (Conf7 ":" 3 3 "left" false) "x:abc" = POk "000/000/abc/abc".
Proof. split; [by vm_compute|]. split; [|by vm_compute]. apply build6_iff. by vm_compute. Qed.
Print Assumptions C32_follows_partial.
Print Assumptions C32_crash_iff_partial.
Theorem C32_crash_refuted : ∃ c id part,
  0 < c7_t c ∧ 0 < c7_n c ∧ id = "x:" +:+ part ∧ c7_delim c = ":" ∧ build7 c id = PPanic.
Proof. exists (Conf7 ":" 2 2 "" false), "x:abc", "abc". split_and!; [cbn; lia|cbn; lia|done|done|by vm_compute]. Qed.
(** An identifier ending with the delimiter gives an empty last element instead of an error. *)
Theorem C32_empty_part_refuted : ∃ c id p, 0 < c7_t c ∧ 0 < c7_n c ∧ c7_pad c = "left" ∧
  build7 c id = POk p ∧ ¬ ∃ es, path_of es p ∧ Forall plain_name es.
Proof.
  exists (Conf7 ":" 2 2 "left" false), "x:", "00/00/". split_and!; [cbn; lia|cbn; lia|done|by vm_compute|].
  apply not_plain. vm_compute. do 2 apply elem_of_list_further. apply elem_of_list_here.
Qed.
Print Assumptions C32_crash_refuted.
Print Assumptions C32_empty_part_refuted.

(** * C33: layout parameters survive a reload *)

(** Full statement: for all layouts.  Missing: 0003, 0004, 0006, 0007 and pairtree, whose parameters are not written. *)
Theorem C33_reload_partial hs ls id : Forall (survives hs) ls →
  manager_path hs (reopened hs ls) id = manager_path hs ls id.
Proof. intros H. by rewrite reopened_survives. Qed.
Example C33_example : ∃ c, constructedD toy_hashes c ∧ Forall (survives toy_hashes) [Flat; LayD c] ∧
  manager_path toy_hashes [Flat; LayD c] "a:b" = Some ("a=u003Ab", false).
Proof.
  exists (ConfD 500 127 [95]%N [32]%N true "sha512" "fallback" 2 1 0 2).
  assert (constructedD toy_hashes (ConfD 500 127 [95]%N [32]%N true "sha512" "fallback" 2 1 0 2)) as H.
  { exists (ConfD 500 0 [95]%N [32]%N true "" "" 2 1 0 2). by vm_compute. }
  split; [done|]. split; [|by vm_compute]. apply Forall_cons. split; [done|]. by apply Forall_singleton.
Qed.
Print Assumptions C33_reload_partial.
(** What is lost, for every configuration: after a reload objects are looked up at their bare identifier; 0006 forgets the delimiter,
    0007 crashes. *)
Theorem C33_hash_layouts_lost hs c3 c4 cp id : hs "" = None →
  manager_path hs (reopened hs [Lay3 c3]) id = Some (id, false) ∧
  manager_path hs (reopened hs [Lay4 c4]) id = Some (id, false) ∧
  manager_path hs (reopened hs [LayP cp]) id = Some (id, false).
Proof. intros H. rewrite !reload_each, read_lay3, read_lay4, read_layP by done. done. Qed.
Theorem C33_omit_prefix_lost hs d c id :
  manager_path hs (reopened hs [Lay6 d]) id = Some (id, false) ∧
  manager_path hs (reopened hs [Lay7 c]) id = None.
Proof.
  rewrite !reload_each, read_lay6, read_lay7. split; [|done]. cbn [manager_path build].
  assert (build6 "" id = POk "") as ->; [|done].
  apply build6_iff. left. split; [exists id; by rewrite str_app_nil_l, str_app_nil_r|]. intros. cbn. lia.
Qed.
Theorem C33_reload_refuted : ∃ hs l id c, l = Lay3 c ∧ new3 hs c = Some c ∧ hs "" = None ∧
  manager_path hs (reopened hs [l]) id ≠ manager_path hs [l] id.
Proof. exists toy_hashes, (Lay3 (Conf3 "toy" 2 2)), "a", (Conf3 "toy" 2 2). by vm_compute. Qed.
Print Assumptions C33_hash_layouts_lost.
Print Assumptions C33_omit_prefix_lost.
Print Assumptions C33_reload_refuted.

(** * C34: direct-clean in UTF mode is reversible *)

(** One decoding function for all configurations: the path tells the names of the identifier, unless it is a fallback path. *)
Theorem C34_reversible : ∃ dec : string → list string, ∀ h c s p,
  valid_utf8 s → cd_utf c = true → buildD h c s = POk p → dec p = names s ∨ ∃ x, fallback h c x = POk p.
Proof. exists undirect. intros h c s p (l & Hl & ->). by apply buildD_utf. Qed.
(** Identifiers of less than a sixth of the limits never need the fallback. *)
Theorem C34_short_reversible : ∃ dec : string → list string, ∀ h c s,
  valid_utf8 s → cd_utf c = true →
  (6 * N.of_nat (String.length s) <= cd_maxpath c)%N →
  Forall (λ e, (6 * N.of_nat (String.length e) <= cd_maxseg c)%N) (names s) →
  ∃ p, buildD h c s = POk p ∧ dec p = names s.
Proof. exists undirect. intros h c s (l & Hl & ->). by apply buildD_utf_short. Qed.
Theorem C34_injective h c a b p : valid_utf8 a → valid_utf8 b → cd_utf c = true →
  buildD h c a = POk p → buildD h c b = POk p → names a = names b ∨ ∃ x, fallback h c x = POk p.
Proof.
  intros (l1 & H1 & ->) (l2 & H2 & ->) Hu Ha Hb.
  apply buildD_utf in Ha as [Ha|Ha]; [|by right|done..].
  apply buildD_utf in Hb as [Hb|Hb]; [|by right|done..]. left. by rewrite <- Ha.
Qed.
(** Escapes in the identifier itself, dots, tildes, and a space. *)
Example C34_example :
  buildD toy_hash utf_conf "=u0020/../~a/ b" = POk "=u003Du0020/=u002E./=u007Ea/=u0020b" ∧
  names "=u0020/../~a/ b" = ["=u0020"; ".."; "~a"; " b"] ∧ valid_utf8 "=u0020/../~a/ b".
Proof.
  split_and!; [by vm_compute..|].
  exists (N_of_ascii <$> list_ascii_of_string "=u0020/../~a/ b"). split; [|by vm_compute].
  apply Forall_fmap. repeat (apply Forall_cons; split; [left; by vm_compute|]). by apply Forall_nil.
Qed.
Print Assumptions C34_reversible.
Print Assumptions C34_short_reversible.
Print Assumptions C34_injective.

(** * C35: direct-clean paths are safe *)

(** In UTF mode, for every other parameter and every identifier.  (Identifiers of slashes only give an empty path.) *)
Theorem C35_utf_safe h c id p : Forall scalar (cd_repl c) → cd_utf c = true → buildD h c id = POk p →
  p = "" ∨
  ((∃ es, path_of es p ∧ Forall (clean_name (cd_maxseg c)) es) ∧ (N.of_nat (String.length p) <= cd_maxpath c)%N) ∨
  (∃ x, fallback h c x = POk p).
Proof. intros Hr Hu. apply buildD_safe; [done|]. intros. by apply utf_good_elem. Qed.
(** Full statement without UTF mode: for every configuration.  Proved for replacement strings of harmless characters, the one for
    characters starting with something else than a dot or a tilde. *)
Theorem C35_replacing_safe_partial h c id p x r :
  cd_utf c = false → cd_repl c = x :: r → x ≠ 126%N → x ≠ 46%N →
  Forall (λ x, scalar x ∧ ¬ forbidden x ∧ x ≠ 47%N) (cd_repl c) →
  Forall (λ x, scalar x ∧ ¬ forbidden x ∧ x ≠ 47%N) (cd_wrepl c) →
  buildD h c id = POk p →
  p = "" ∨
  ((∃ es, path_of es p ∧ Forall (clean_name (cd_maxseg c)) es) ∧ (N.of_nat (String.length p) <= cd_maxpath c)%N) ∨
  (∃ x, fallback h c x = POk p).
Proof.
  intros Hu Ex Hx Hx' Hr Hw. apply buildD_safe.
  - eapply Forall_impl; [exact Hr|]. by intros ? [? _].
  - intros n _ HF. apply replace_good_elem; [done..| |done]. by exists x, r.
Qed.
(** Fallback paths: plain names below the fallback folder.  Missing: fallback folders that are not relative paths of plain names, and
    tuples of size zero or above the limit. *)
Theorem C35_fallback_safe_partial h c fs x p :
  fs ≠ [] → Forall plain_name fs → cd_folder c = join_slash fs → (0 < cd_maxseg c)%N →
  cd_ntuples c = 0 ∨ (0 < cd_tsize c ∧ (N.of_nat (cd_tsize c) <= cd_maxseg c)%N) →
  h x ≠ "" → fallback h c x = POk p →
  ∃ es, path_of (fs ++ es) p ∧ Forall (clean_name (cd_maxseg c)) es ∧ (N.of_nat (String.length p) <= cd_maxpath c)%N.
Proof. apply fallback_safe. Qed.
Definition plain_conf : confD := ConfD 32000 127 [95]%N [45]%N false "toy" "fallback" 1 1 0 0.
Definition short_conf : confD := ConfD 40 6 [95]%N [45]%N true "toy" "fallback" 2 2 0 0.
Example C35_example :
  buildD toy_hash plain_conf "../~a b*/c " = POk "_./a-b_/c-" ∧
  buildD toy_hash utf_conf "../~a b*/c " = POk "=u002E./=u007Ea=u0020b=u002A/c=u0020" ∧
  buildD toy_hash short_conf "a b/c" = POk "fallback/05/57/057518/61".
Proof. by vm_compute. Qed.
Print Assumptions C35_utf_safe.
Print Assumptions C35_replacing_safe_partial.
Print Assumptions C35_fallback_safe_partial.
(** With an empty replacement string, three dots become two: the path leaves the storage root. *)
Theorem C35_parent_refuted : ∃ h c id p, cd_utf c = false ∧ cd_repl c = [] ∧
  buildD h c id = POk p ∧ p = "../etc".
Proof. exists toy_hash, (ConfD 32000 127 [] [45]%N false "toy" "fallback" 1 1 0 0), ".../etc", "../etc". by vm_compute. Qed.
(** A replacement string with forbidden characters is put into the path. *)
Theorem C35_forbidden_refuted : ∃ h c id p, cd_utf c = false ∧ buildD h c id = POk p ∧ p = "a:b" ∧ forbidden (N_of_ascii ":").
Proof.
  exists toy_hash, (ConfD 32000 127 [58]%N [45]%N false "toy" "fallback" 1 1 0 0), "a*b", "a:b". split_and!; [by vm_compute..|].
  change (N_of_ascii ":") with 58%N. unfold forbidden. lia.
Qed.
(** More fallback tuples than the digest has characters: a crash instead of a path. *)
Theorem C35_fallback_crash_refuted : ∃ h c id, 0 < cd_tsize c ∧ buildD h c id = PPanic.
Proof.
  exists toy_hash, (ConfD 40 6 [95]%N [45]%N true "toy" "fallback" 9 1 0 0), "a b/c". split; [cbn; lia|by vm_compute].
Qed.
Print Assumptions C35_parent_refuted.
Print Assumptions C35_forbidden_refuted.
Print Assumptions C35_fallback_crash_refuted.
