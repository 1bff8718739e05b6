(** What the display server delivers. *)
From Coq Require Import Ascii.
From stdpp Require Import base list strings gmap.
From Coq Require Import ZArith Lia.
From Verif Require Import GoStr PathModel PathProofs InventoryModel InventorySpec ObjectModel LoadModel CrashSpec ValidateModel CheckModel AreaModel LayoutModel RootModel RootAddModel RootCheckModel
  MetaModel MetaSpec RootExtractModel ServerModel ServerSpec ServerProofs ServerProofs2 ServerProofs3 Fixtures2 Fixtures3 Fixtures5 Fixtures13 RootAddSpec Properties4 Properties18 Properties19.

(** * C80: the display server delivers the content that was asked for *)

(** Full statement: whatever other requests were made before or are made at the same time, a download delivers the content with the digest
    from the object with the identifier.  False for requests at the same time; see below.  Proved for requests one after the other, after
    any requests for any objects. *)
Theorem C80_download_partial A hash parse create ls (exts : string → list (string * (gmap string A + string))) tree rs w id digest b :
  Forall (λ x, worders_ok x.1) rs → worders_ok w →
  (serve hash parse create ls exts tree w (RqFile id digest) (serve_all hash parse create ls exts tree rs idle)).2 = RpData b →
  content_of hash parse create ls tree id digest b.
Proof. intros Hrs Hw. apply serve_file; [done|]. apply serve_all_sane; [done|]. apply idle_sane. Qed.
(** In a root with intact content the delivered bytes have the digest. *)
Theorem C80_digest_partial A hash parse create ls (exts : string → list (string * (gmap string A + string))) tree rs w id digest b :
  Forall (λ x, worders_ok x.1) rs → worders_ok w → (∀ folder i s, stored hash parse create tree folder i s → describes hash i s) →
  (serve hash parse create ls exts tree w (RqFile id digest) (serve_all hash parse create ls exts tree rs idle)).2 = RpData b →
  ∃ folder i s, stored hash parse create tree folder i s ∧ (addressed ls id folder ∨ inv_id i = id) ∧ hash (inv_alg i) b = Some digest.
Proof.
  intros Hrs Hw Hd Hb. destruct (C80_download_partial A hash parse create ls exts tree rs w id digest b Hrs Hw Hb) as (folder & i & s & p & ps & H1 & H2 & H3 & H4).
  exists folder, i, s. split; [done|]. split; [done|]. destruct (Hd _ _ _ H1 digest p) as (data & Hp & Hh); [exists (p :: ps); split; [done|left]|].
  rewrite H4 in Hp. by injection Hp as <-.
Qed.
(** If every object is where the layout puts it, what the server remembers of earlier requests does not show: the response is that of a
    server that has just been started. *)
Theorem C80_remembered_partial A hash parse create ls (exts : string → list (string * (gmap string A + string))) tree rs w w' r :
  in_place hash parse create ls tree → Forall (λ x, worders_ok x.1) rs → worders_ok w → worders_ok w' →
  (match r with RqFile _ _ | RqExtension _ _ _ => True | _ => False end) →
  (serve hash parse create ls exts tree w r (serve_all hash parse create ls exts tree rs idle)).2 = (serve hash parse create ls exts tree w' r idle).2.
Proof. intros Hp Hrs Hw Hw' Hr. apply serve_remembered; try done. apply serve_all_sane; [done|]. apply idle_sane. Qed.
(** The handlers themselves never panic, if the layout has a path for the identifier and opening an object does not panic. *)
Theorem C80_no_panic_partial A hash parse create ls (exts : string → list (string * (gmap string A + string))) tree rs w r :
  Forall (λ x, worders_ok x.1) rs → worders_ok w → (∀ id, asked r = Some id → root_path ls id ≠ None) →
  (∀ folder, open_folder hash parse create tree folder ≠ NotOpenedAt SPanic) →
  (serve hash parse create ls exts tree w r (serve_all hash parse create ls exts tree rs idle)).2 ≠ RpPanic.
Proof.
  intros Hrs Hw Hp Ho. assert (∀ folder, load_at hash parse create tree folder ≠ inr true) as Hl.
  { intros folder H. unfold load_at in H. specialize (Ho folder). destruct (open_folder _ _ _ _ _) as [? ?|[]]; try discriminate H; done. }
  apply serve_no_panic; [done|apply serve_all_sane; [done|]; apply idle_sane|].
  assert (∀ id, asked r = Some id → load_id hash parse create ls tree id ≠ inr true) as Hi.
  { intros id Hid H. unfold load_id in H. specialize (Hp id Hid). destruct (root_path ls id) as [[f []]|]; [discriminate H| |by apply Hp]. exact (Hl f H). }
  destruct r as [g id|f|id dg|id nm pt]; cbn [load_for]; [by apply Hi|apply Hl|by apply Hi..].
Qed.
(** Requests at the same time, all for one identifier: every download delivers the right content. *)
Theorem C80_same_object_partial A hash parse create ls (exts : string → list (string * (gmap string A + string))) tree s ts id digest b :
  runs hash parse create ls exts tree s ts → (∀ x, x ∈ ts → asked x.1 = Some id) → (RqFile id digest, AtEnd (RpData b)) ∈ ts →
  content_of hash parse create ls tree id digest b.
Proof. intros Hr Ha Hx. destruct (runs_agreed hash parse create ls exts tree id s ts Hr Ha) as [_ H]. exact (H _ Hx). Qed.
(** Any requests at the same time: a download delivers a file of some object of the root. *)
Theorem C80_some_object_partial A hash parse create ls (exts : string → list (string * (gmap string A + string))) tree s ts r b :
  runs hash parse create ls exts tree s ts → (r, AtEnd (RpData b)) ∈ ts →
  ∃ folder i st p, stored hash parse create tree folder i st ∧ st !! p = Some b.
Proof. intros Hr Hx. destruct (runs_loaded hash parse create ls exts tree s ts Hr) as [_ H]. exact (H _ _ Hx). Qed.
(** Files of extensions: with plain names the delivered file is below the folder of the extension. *)
Theorem C80_extension_partial A hash parse create ls (exts : string → list (string * (gmap string A + string))) tree rs w id name path b :
  Forall (λ x, worders_ok x.1) rs → worders_ok w → clean_rel name → clean_rel path →
  (serve hash parse create ls exts tree w (RqExtension id name ("/" +:+ path)) (serve_all hash parse create ls exts tree rs idle)).2 = RpData b →
  ∃ folder i s, stored hash parse create tree folder i s ∧ (addressed ls id folder ∨ inv_id i = id) ∧ s !! ("extensions/" +:+ name +:+ "/" +:+ path) = Some b.
Proof.
  intros Hrs Hw Hn Hp Hb. apply serve_extension in Hb; [|done|apply serve_all_sane; [done|apply idle_sane]]. by rewrite extension_join in Hb.
Qed.

(** Two objects, [p] with x and [q] with y, in the folders that a hashed layout gives them. *)
Definition sv_version (d : string) : version := Version "2024-01-01T00:00:00Z" "msg" "me" "mailto:me" {[d := ["a"]]}.
Definition sv_inv (id d : string) : inventory :=
  Inventory id "https://ocfl.io/1.1/spec/#inventory" "sha512" "v1" "" {[d := ["v1/content/a"]]} {["v1" := sv_version d]} ∅ [] 0 false false.
Definition sv_exts : list (string * RootModel.node) := root_exts_dir ++ [("NNNN-mets", Dir (config "NNNN-mets" ++ [("data", Dir [("notes", File "notes")])]))].
Definition sv_dir (id d b : string) : list (string * RootModel.node) :=
  [("0=ocfl_object_1.1", File ("ocfl_object_1.1" +:+ String "010" "")); ("extensions", Dir sv_exts); ("inventory.json", File (jjson (sv_inv id d)));
   ("inventory.json.sha512", File (toy_side (jjson (sv_inv id d)))); ("v1", Dir [("content", Dir [("a", File b)])])].
Definition sv_tree : list (string * RootModel.node) := root_of "1.1" [("6f70", Dir (sv_dir "p" "a78" "x")); ("6f71", Dir (sv_dir "q" "a79" "y"))] root_exts_dir.
Definition sv_layout : list (string → pres) := [build4 (String "o") (Conf4 "toy" 0 0 false)].
Definition sv_none : string → list (string * (gmap string string + string)) := λ _, [].
Definition sv_serve (r : request) (s : server string) : server string * response string := serve hexh jparse toy_create sv_layout sv_none sv_tree w0 r s.
Definition sv_all (rs : list (worders * request)) : server string := serve_all hexh jparse toy_create sv_layout sv_none sv_tree rs idle.
Definition sv_files (id d b : string) : storage := dir_files (sv_dir id d b).
Lemma sv_apart : keeps_apart sv_layout (λ _, True).
Proof.
  apply (C59_hashed_apart toy_hashes (Conf4 "toy" 0 0 false) (Conf4 "toy" 0 0 false)); [by vm_compute|done| |].
  - intros id _. split; [done|]. cbn. lia.
  - intros a b _ _ E. by injection E.
Qed.
Lemma sv_stored_p : stored hexh jparse toy_create sv_tree "6f70" (sv_inv "p" "a78") (sv_files "p" "a78" "x").
Proof. unfold stored. vm_compute. reflexivity. Qed.
Lemma sv_stored_q : stored hexh jparse toy_create sv_tree "6f71" (sv_inv "q" "a79") (sv_files "q" "a79" "y").
Proof. unfold stored. vm_compute. reflexivity. Qed.
(** Every object of the tree is one of the two. *)
Lemma sv_only folder i s : stored hexh jparse toy_create sv_tree folder i s →
  (path_clean folder = "6f70" ∧ i = sv_inv "p" "a78" ∧ s = sv_files "p" "a78" "x") ∨ (path_clean folder = "6f71" ∧ i = sv_inv "q" "a79" ∧ s = sv_files "q" "a79" "y").
Proof.
  intros H. assert (path_clean folder = "6f70" ∨ path_clean folder = "6f71") as Hf.
  { unfold stored, open_folder in H. destruct (find_folder folder sv_tree) as [l|] eqn:E; [|discriminate H].
    assert (ServerProofs3.level 6 sv_tree = []) as Hl by (vm_compute; reflexivity).
    destruct (find_folder_dirs 6 folder sv_tree l Hl E) as [[_ ->]|(names & Hn & Hin)].
    - exfalso. revert H. vm_compute. intros H. discriminate H.
    - assert (forallb (λ x : list string * list (string * RootModel.node),
        bool_decide (x.1 = ["6f70"]) || bool_decide (x.1 = ["6f71"]) || match get_version "ocfl_object_" x.2 with GOk _ => false | _ => true end) (dirs 6 sv_tree) = true) as Hb by (vm_compute; reflexivity).
      rewrite forallb_forall in Hb. apply elem_of_list_In, Hb in Hin. cbn [fst snd] in Hin. apply orb_prop in Hin as [Hin|Hin].
      + apply orb_prop in Hin as [Hin%bool_decide_eq_true|Hin%bool_decide_eq_true]; rewrite Hin in Hn; [left|right];
          rewrite <- (join_split slash (path_clean folder)); unfold split_slash in Hn; rewrite Hn; reflexivity.
      + exfalso. destruct (get_version "ocfl_object_" l); [discriminate Hin|discriminate H..]. }
  assert (∀ f, path_clean f = f → path_clean folder = f → stored hexh jparse toy_create sv_tree f i s) as Hc.
  { intros f E1 E2. unfold stored in *. rewrite <- H. apply open_clean. by rewrite E1, E2. }
  destruct Hf as [Hf|Hf]; [left|right]; (split; [exact Hf|]).
  - assert (path_clean "6f70" = "6f70") as E by reflexivity. pose proof (Hc "6f70" E Hf) as H1. pose proof sv_stored_p as H2. unfold stored in H1, H2. rewrite H2 in H1.
    injection H1 as E1 E2. exact (conj (eq_sym E1) (eq_sym E2)).
  - assert (path_clean "6f71" = "6f71") as E by reflexivity. pose proof (Hc "6f71" E Hf) as H1. pose proof sv_stored_q as H2. unfold stored in H1, H2. rewrite H2 in H1.
    injection H1 as E1 E2. exact (conj (eq_sym E1) (eq_sym E2)).
Qed.
Lemma sv_addressed id f : addressed sv_layout id f → clean_rel f.
Proof. unfold addressed. intros H. destruct (ka_folder _ _ sv_apart id I) as (g & Hg & Hc). by assert (f = g) as -> by congruence. Qed.
Lemma sv_unique a b f g : addressed sv_layout a f → addressed sv_layout b g → f = g → a = b.
Proof.
  intros Ha Hb ->. destruct (decide (a = b)) as [|Hne]; [done|]. destruct (ka_apart _ _ sv_apart a b g g I I Hne Ha Hb) as [H _]. done.
Qed.
Lemma sv_in_place : in_place hexh jparse toy_create sv_layout sv_tree.
Proof.
  assert (addressed sv_layout "p" "6f70") as Ap by (vm_compute; reflexivity). assert (addressed sv_layout "q" "6f71") as Aq by (vm_compute; reflexivity).
  split.
  - intros folder i s H. destruct (sv_only _ _ _ H) as [(Hf & -> & _)|(Hf & -> & _)]; [exists "6f70"|exists "6f71"]; cbn [inv_id sv_inv]; rewrite Hf; done.
  - intros id folder i s Ha H. pose proof (AreaProofs.path_clean_rel _ (sv_addressed _ _ Ha)) as Hc.
    destruct (sv_only _ _ _ H) as [(Hf & -> & _)|(Hf & -> & _)]; rewrite Hc in Hf; cbn [inv_id sv_inv]; [exact (sv_unique _ _ _ _ Ap Ha (eq_sym Hf))|exact (sv_unique _ _ _ _ Aq Ha (eq_sym Hf))].
Qed.
Lemma sv_describes folder i s : stored hexh jparse toy_create sv_tree folder i s → describes hexh i s.
Proof.
  intros H. assert (describes hexh (sv_inv "p" "a78") (sv_files "p" "a78" "x") ∧ describes hexh (sv_inv "q" "a79") (sv_files "q" "a79" "y")) as [H1 H2].
  { split; intros d p (ps & Hps & Hp); cbn [inv_manifest sv_inv] in Hps; apply lookup_singleton_Some in Hps as [<- <-]; apply elem_of_list_singleton in Hp as ->;
      [exists "x"|exists "y"]; (split; [vm_compute; reflexivity|reflexivity]). }
  destruct (sv_only _ _ _ H) as [(_ & -> & ->)|(_ & -> & ->)]; [exact H1|exact H2].
Qed.
Definition sv_before : list (worders * request) :=
  [(w0, RqPage true "q"); (w0, RqFile "p" "a78"); (w0, RqFolder "6f71/."); (w0, RqPage false "none"); (w0, RqFolder "6f71"); (w0, RqExtension "q" "initial" "/config.json")].
Example C80_example :
  Forall (λ x, worders_ok x.1) sv_before ∧ worders_ok w0 ∧ in_place hexh jparse toy_create sv_layout sv_tree ∧
  (∀ folder i s, stored hexh jparse toy_create sv_tree folder i s → describes hexh i s) ∧ option_map h_folder (sv_object (sv_all sv_before)) = Some "6f71" ∧
  (sv_serve (RqFile "p" "a78") (sv_all sv_before)).2 = RpData "x" ∧ (sv_serve (RqFile "q" "a79") (sv_all sv_before)).2 = RpData "y" ∧
  (sv_serve (RqFile "q" "a78") (sv_all sv_before)).2 = RpError ∧ (sv_serve (RqFile "p" "a78") idle).2 = RpData "x" ∧
  load_for hexh jparse toy_create sv_layout sv_tree (RqFile "r" "a78") = inr false ∧ (sv_serve (RqFile "r" "a78") (sv_all sv_before)).2 = RpError ∧
  clean_rel "NNNN-mets" ∧ clean_rel "data/notes" ∧ (sv_serve (RqExtension "p" "NNNN-mets" "/data/notes") (sv_all sv_before)).2 = RpData "notes".
Proof.
  split; [repeat constructor; exact w0_ok|]. split; [exact w0_ok|]. split; [exact sv_in_place|]. split; [exact sv_describes|].
  split; [vm_compute; reflexivity|]. split; [vm_compute; reflexivity|]. split; [vm_compute; reflexivity|]. split; [vm_compute; reflexivity|]. split; [vm_compute; reflexivity|].
  split; [vm_compute; reflexivity|]. split; [vm_compute; reflexivity|]. split; [by repeat constructor|]. split; [by repeat constructor|]. vm_compute. reflexivity.
Qed.
Lemma sv_calm folder : open_folder hexh jparse toy_create sv_tree folder ≠ NotOpenedAt SPanic.
Proof.
  unfold open_folder. destruct (find_folder folder sv_tree) as [l|] eqn:E; [|intros H; discriminate H].
  assert (match create_extensions true toy_create (ext_folder l) with XPanic => false | _ => true end = true) as Hx.
  { assert (ServerProofs3.level 6 sv_tree = []) as Hl by (vm_compute; reflexivity). destruct (find_folder_dirs 6 folder sv_tree l Hl E) as [[_ ->]|(names & Hn & Hin)]; [vm_compute; reflexivity|].
    assert (forallb (λ x : list string * list (string * RootModel.node), match create_extensions true toy_create (ext_folder x.2) with XPanic => false | _ => true end) (dirs 6 sv_tree) = true) as Hb
      by (vm_compute; reflexivity).
    rewrite forallb_forall in Hb. apply elem_of_list_In, Hb in Hin. exact Hin. }
  destruct (get_version "ocfl_object_" l); [|intros H; discriminate H..].
  destruct (create_extensions true toy_create (ext_folder l)); [|intros H; discriminate H|discriminate Hx].
  destruct (load_inventory hexh jparse (dir_files l) ""); intros H; discriminate H.
Qed.
Example C80_no_panic_example :
  Forall (λ x, worders_ok x.1) sv_before ∧ worders_ok w0 ∧ (∀ id, asked (RqFile "p" "a99") = Some id → root_path sv_layout id ≠ None) ∧
  (∀ folder, open_folder hexh jparse toy_create sv_tree folder ≠ NotOpenedAt SPanic) ∧ (sv_serve (RqFile "p" "a99") (sv_all sv_before)).2 = RpError.
Proof.
  split; [repeat constructor; exact w0_ok|]. split; [exact w0_ok|]. split; [|split; [exact sv_calm|vm_compute; reflexivity]].
  intros id _ H. destruct (ka_folder _ _ sv_apart id I) as (f & Hf & _). congruence.
Qed.

(** Requests at the same time.  Two downloads from [p] in turns. *)
Definition sv_acts (l : list act) : server string * list (request * place string) := acts hexh jparse toy_create sv_layout sv_none sv_tree w0 l.
Definition sv_runs := runs (A := string) hexh jparse toy_create sv_layout sv_none sv_tree.
Definition sv_turns : list act :=
  [inl (RqFile "p" "a78"); inr 0; inl (RqFile "p" "a78"); inr 1; inr 0; inr 1; inr 0; inr 0; inr 1; inr 0; inr 1; inr 0; inr 1; inr 1].
Example C80_same_object_example :
  sv_runs (sv_acts sv_turns).1 (sv_acts sv_turns).2 ∧ (∀ x, x ∈ (sv_acts sv_turns).2 → asked x.1 = Some "p") ∧
  (RqFile "p" "a78", AtEnd (RpData "x")) ∈ (sv_acts sv_turns).2 ∧ length (sv_acts sv_turns).2 = 2.
Proof.
  split; [apply acts_runs; exact w0_ok|].
  assert ((sv_acts sv_turns).2 = [(RqFile "p" "a78", AtEnd (RpData "x")); (RqFile "p" "a78", AtEnd (RpData "x"))]) as -> by (vm_compute; reflexivity).
  split; [|split; [left|reflexivity]]. intros x Hx. rewrite !elem_of_cons, elem_of_nil in Hx. destruct Hx as [-> |[-> |[]]]; reflexivity.
Qed.
(** A download from [p] has found the path of the content; another reader asks for the page of [q]; the content at this path in [q] is delivered.
    (It has another digest and is not in [p].) *)
Definition sv_mixed : list act := [inl (RqFile "p" "a78"); inr 0; inr 0; inr 0; inr 0; inr 0; inl (RqPage true "q"); inr 1; inr 1; inr 0].
Theorem C80_other_object_refuted : ∃ s ts,
  sv_runs s ts ∧ (RqFile "p" "a78", AtEnd (RpData "y")) ∈ ts ∧ hexh "sha512" "y" ≠ Some "a78" ∧
  ¬ ∃ d, content_of hexh jparse toy_create sv_layout sv_tree "p" d "y".
Proof.
  exists (sv_acts sv_mixed).1, (sv_acts sv_mixed).2. split; [apply acts_runs; exact w0_ok|]. split; [|split].
  - assert (head (sv_acts sv_mixed).2 = Some (RqFile "p" "a78", AtEnd (RpData "y"))) as H by (vm_compute; reflexivity). destruct (sv_acts sv_mixed).2 as [|x l]; [discriminate H|]. injection H as ->. left.
  - intros H. vm_compute in H. discriminate H.
  - intros (d & folder & i & s & p & ps & H1 & H2 & H3 & H4).
    assert (inv_id i = "p") as Hid by (destruct H2 as [H2|H2]; [exact (proj2 sv_in_place _ _ _ _ H2 H1)|exact H2]).
    destruct (sv_only _ _ _ H1) as [(_ & -> & ->)|(_ & -> & _)]; [|cbn [inv_id sv_inv] in Hid; discriminate Hid].
    cbn [inv_manifest sv_inv] in H3. apply lookup_singleton_Some in H3 as [_ [= <- _]]. vm_compute in H4. discriminate H4.
Qed.
(** After two requests at the same time the server can be left with the object of one and the metadata of the other, both requests answered.  From then on
    it shows the metadata of [p] as the page of [q], refuses the content of [q], which is stored, and gives out that of [q] for the digest of [p], until
    another object is asked for. *)
Definition sv_left : list act :=
  [inl (RqPage true "p"); inr 0; inr 0; inr 0; inl (RqPage true "q"); inr 1; inr 1; inr 1; inr 1; inr 1; inr 0; inr 0].
Theorem C80_mixed_refuted : ∃ s ts m,
  sv_runs s ts ∧ ts = [(RqPage true "p", AtEnd (RpPage "q" m)); (RqPage true "q", AtEnd (RpPage "q" (default m (sv_meta (sv_serve (RqPage true "q") idle).1))))] ∧
  om_id m = "p" ∧ (sv_serve (RqPage true "q") s).2 = RpPage "q" m ∧
  (sv_serve (RqFile "q" "a79") s).2 = RpError ∧ (sv_serve (RqFile "q" "a79") idle).2 = RpData "y" ∧ (sv_serve (RqFile "q" "a78") s).2 = RpData "y".
Proof.
  exists (sv_acts sv_left).1, (sv_acts sv_left).2, (default (ObjectMeta "" "" "" ∅ ∅ None) (sv_meta (sv_serve (RqPage true "p") idle).1)).
  split; [apply acts_runs; exact w0_ok|]. split; [vm_compute; reflexivity|]. split; [vm_compute; reflexivity|]. split; [vm_compute; reflexivity|].
  split; [vm_compute; reflexivity|]. split; [vm_compute; reflexivity|]. vm_compute. reflexivity.
Qed.
(** The names in the path of an extension file are not tested: a download of a file of an extension delivers the inventory or the content. *)
Theorem C80_extension_refuted : ∃ name path b, (sv_serve (RqExtension "p" name path) idle).2 = RpData b ∧
  b = "x" ∧ ∀ rest, path_join ["extensions"; name; path] ≠ "extensions/" +:+ rest.
Proof.
  exists "..", "/v1/content/a", "x". split; [vm_compute; reflexivity|]. split; [reflexivity|]. intros rest H. vm_compute in H. discriminate H.
Qed.
(** If there is a second object with the identifier, the answer depends on the pages that were visited before. *)
Definition sv_twice : list (string * RootModel.node) := root_of "1.1" [("6f70", Dir (sv_dir "p" "a78" "x")); ("copy", Dir (sv_dir "p" "a79" "y"))] root_exts_dir.
Theorem C80_remembered_refuted : ∃ b,
  (serve hexh jparse toy_create sv_layout sv_none sv_twice w0 (RqFile "p" "a79") (serve_all hexh jparse toy_create sv_layout sv_none sv_twice [(w0, RqFolder "copy")] idle)).2 = RpData b ∧
  (serve hexh jparse toy_create sv_layout sv_none sv_twice w0 (RqFile "p" "a79") idle).2 = RpError.
Proof. exists "y". split; vm_compute; reflexivity. Qed.
(** The loaded object is never read again: after an update by another process (version 2 adds a file) the server refuses the new content, until
    another object has been asked for. *)
Definition sv_inv2 : inventory :=
  Inventory "p" "https://ocfl.io/1.1/spec/#inventory" "sha512" "v2" "" {["a78" := ["v1/content/a"]; "a7a" := ["v2/content/b"]]}
    {["v1" := sv_version "a78"; "v2" := Version "2024-01-02T00:00:00Z" "msg" "me" "mailto:me" {["a78" := ["a"]; "a7a" := ["b"]]}]} ∅ [] 0 false false.
Definition sv_dir2 : list (string * RootModel.node) :=
  [("0=ocfl_object_1.1", File ("ocfl_object_1.1" +:+ String "010" "")); ("extensions", Dir sv_exts); ("inventory.json", File (jjson sv_inv2));
   ("inventory.json.sha512", File (toy_side (jjson sv_inv2))); ("v1", Dir [("content", Dir [("a", File "x")])]); ("v2", Dir [("content", Dir [("b", File "z")])])].
Definition sv_updated : list (string * RootModel.node) := root_of "1.1" [("6f70", Dir sv_dir2); ("6f71", Dir (sv_dir "q" "a79" "y"))] root_exts_dir.
Theorem C80_stale_refuted : ∃ s,
  s = (sv_serve (RqPage true "p") idle).1 ∧
  (serve hexh jparse toy_create sv_layout sv_none sv_updated w0 (RqFile "p" "a7a") s).2 = RpError ∧
  (serve hexh jparse toy_create sv_layout sv_none sv_updated w0 (RqFile "p" "a7a") idle).2 = RpData "z" ∧
  (serve hexh jparse toy_create sv_layout sv_none sv_updated w0 (RqFile "p" "a7a") (serve hexh jparse toy_create sv_layout sv_none sv_updated w0 (RqPage true "q") s).1).2 = RpData "z".
Proof. exists (sv_serve (RqPage true "p") idle).1. split; [reflexivity|]. split; [vm_compute; reflexivity|]. split; vm_compute; reflexivity. Qed.
Print Assumptions C80_download_partial.
Print Assumptions C80_digest_partial.
Print Assumptions C80_remembered_partial.
Print Assumptions C80_no_panic_partial.
Print Assumptions C80_same_object_partial.
Print Assumptions C80_some_object_partial.
Print Assumptions C80_extension_partial.
Print Assumptions C80_other_object_refuted.
Print Assumptions C80_mixed_refuted.
Print Assumptions C80_extension_refuted.
Print Assumptions C80_remembered_refuted.
Print Assumptions C80_stale_refuted.
