(** Storage roots that were filled by requests: what a walk over the tree finds. *)
From Coq Require Import Ascii.
From stdpp Require Import base list strings gmap.
From Coq Require Import ZArith Lia.
From Verif Require Import GoStr PathModel InventoryModel ObjectModel InventorySpec ObjectSpec CrashSpec PathProofs AreaModel AreaProofs LoadModel PublishSpec PublishProofs PublishProofs3 IngestModel IngestSpec IngestProofs6
  ValidateModel ValidateSpec CheckModel AcceptSpec
  LayoutModel LayoutSpec RootModel RootSpec RootProofs RootAddModel RootAddSpec RootAddProofs RootAddProofs2 RootCheckModel RootCheckSpec RootCheckProofs RootCheckProofs2 RootFillSpec RootFillProofs
  Properties7.

(** What is known of the files of an object. *)
Record shaped (v : string) (t : storage) : Prop := Shaped {
  sh_decl : decl_ok v t;
  sh_top : ∀ p x, t !! p = Some x → str_mem slash p = false → p = declaration "ocfl_object_" v ∨ str_mem "="%char p = false;
  sh_dirs : ∀ p x, t !! p = Some x → str_mem slash p = true → (∃ r, p = String "v" r) ∨ inside "extensions" p ∨ inside "logs" p
}.

Lemma inside_names f names : names ≠ [] → Forall pname names → inside f (join_slash names) → ∃ r, r ≠ [] ∧ names = split_slash f ++ r.
Proof.
  intros Hn Hp [r E]. apply (f_equal split_slash) in E. rewrite split_join_names, split_slash_app in E by done. exists (split_slash r). split; [|done]. apply split_on_nonempty.
Qed.
Lemma names_inside f r : r ≠ [] → inside f (join_slash (split_slash f ++ r)).
Proof. intros Hr. rewrite join_app by (done || apply split_on_nonempty). exists (join_slash r). f_equal. apply (join_split slash). Qed.
Lemma join_slashes names name : names ≠ [] → str_mem slash (join_slash (names ++ [name])) = true.
Proof. intros Hn. rewrite join_app by done. rewrite !str_mem_app. change (str_mem slash "/") with true. by destruct (str_mem slash (join_slash names)). Qed.
Lemma file_entry (l : tree) name data : (name, File data) ∈ l → file_at l [name] data.
Proof. intros Hi. exists [], name, l. split; [done|]. split; [constructor|done]. Qed.
Lemma entry_file (l : tree) name data : file_at l [name] data → (name, File data) ∈ l.
Proof.
  intros (dirs & nm & sub & E & Hl & Hi). destruct dirs as [|x dirs]; [|apply (f_equal length) in E; rewrite app_length in E; cbn in E; lia]. injection E as <-. by inversion Hl; subst.
Qed.
Lemma no_slash_names names : Forall pname names → names ≠ [] → str_mem slash (join_slash names) = false → ∃ x, names = [x].
Proof.
  intros _ Hn E. destruct (exists_last Hn) as (l & x & ->). destruct l as [|y l]; [by exists x|]. by rewrite join_slashes in E.
Qed.
Lemma version_no_slash pre v : str_mem slash pre = false → v = "1.0" ∨ v = "1.1" → str_mem slash (declaration pre v) = false.
Proof. intros Hp Hv. unfold declaration. rewrite !str_mem_app, Hp. by destruct Hv as [-> | ->]. Qed.

Section fill.
  Context (rt : RootAddModel.root) (ids : string → Prop) (s0 : storage) (H : gmap string (list storage)) (s : storage) (root : tree).
  Let v := rt_version rt.
  Context (Hv : v = "1.0" ∨ v = "1.1").
  Context (Hap : keeps_apart (rt_layouts rt) ids) (Hfree : extensions_free rt ids) (Hst : started v s0) (Hls : lists root s).
  Context (Hdom : ∀ id ts, H !! id = Some ts → ids id).
  Context (Hobj : ∀ id f, ids id → root_path (rt_layouts rt) id = Some (f, false) → match H !! id with None => sub_files f s = ∅ | Some _ => shaped v (sub_files f s) end).
  Context (Hout : ∀ p, (∀ id f, ids id → root_path (rt_layouts rt) id = Some (f, false) → ¬ inside f p) → s !! p = s0 !! p).

  Definition occ (f : string) : Prop := ∃ id ts, root_path (rt_layouts rt) id = Some (f, false) ∧ H !! id = Some ts.
  Lemma occ_clean f : occ f → clean_rel f.
  Proof using Hap Hdom. intros (id & ts & Hf & HH). destruct (ka_folder _ _ Hap id (Hdom _ _ HH)) as (g & Hg & Hc). assert (g = f) as -> by congruence. done. Qed.
  Lemma occ_shaped f : occ f → shaped v (sub_files f s).
  Proof using Hobj Hdom. intros (id & ts & Hf & HH). specialize (Hobj id f (Hdom _ _ HH) Hf). by rewrite HH in Hobj. Qed.
  Lemma occ_apart f g : occ f → occ g → inside f g → False.
  Proof using Hap Hdom.
    intros (i1 & t1 & Hf1 & HH1) (i2 & t2 & Hf2 & HH2) [r ->]. destruct (decide (i1 = i2)) as [<-|Hne].
    - rewrite Hf1 in Hf2. injection Hf2 as E. apply (f_equal String.length) in E. rewrite !str_length_app in E. cbn in E. clear -E. lia.
    - destruct (ka_apart _ _ Hap _ _ _ _ (Hdom _ _ HH1) (Hdom _ _ HH2) Hne Hf1 Hf2) as (_ & Hn & _). apply Hn. by exists r.
  Qed.
  Definition insideb (p : string) : bool :=
    existsb (λ x : string * list storage, match root_path (rt_layouts rt) x.1 with Some (f, false) => has_prefix (f +:+ "/") p | _ => false end) (map_to_list H).
  Lemma insideb_spec p : insideb p = true ↔ ∃ f, occ f ∧ inside f p.
  Proof using.
    unfold insideb. rewrite existsb_exists. split.
    - intros ([id ts] & Hi & Hp). apply elem_of_list_In, elem_of_map_to_list in Hi. cbn [fst] in Hp. destruct (root_path (rt_layouts rt) id) as [[f []]|] eqn:E; try done.
      apply has_prefix_spec in Hp as [t ->]. exists f. split; [by exists id, ts|]. exists t. by rewrite str_app_assoc.
    - intros (f & (id & ts & Hf & HH) & r & ->). exists (id, ts). split; [by apply elem_of_list_In, elem_of_map_to_list|]. cbn [fst]. rewrite Hf. apply has_prefix_spec.
      exists r. by rewrite str_app_assoc.
  Qed.
  Lemma file_case p data : s !! p = Some data → (∃ f, occ f ∧ inside f p) ∨ s0 !! p = Some data.
  Proof using Hobj Hout Hap.
    intros Hp. destruct (insideb p) eqn:E; [left; by apply insideb_spec|right]. assert (¬ ∃ f, occ f ∧ inside f p) as Hno by (rewrite <- insideb_spec; by rewrite E).
    rewrite <- Hout; [done|]. intros id f Hid Hf Hin. specialize (Hobj id f Hid Hf). destruct (H !! id) as [ts|] eqn:EH; [apply Hno; exists f; split; [by exists id, ts|done]|].
    destruct (ka_folder _ _ Hap id Hid) as (g & Hg & Hc). assert (g = f) as -> by congruence.
    pose proof (proj1 (sub_empty f s Hc) Hobj p Hin) as E2. congruence.
  Qed.
  Lemma dir_case names l name data : leads root names l → names ≠ [] → hd "" names ≠ "extensions" → (name, File data) ∈ l → ∃ f r, occ f ∧ names = split_slash f ++ r.
  Proof using Hobj Hout Hap Hls Hst Hv.
    intros Hl Hn Hh Hi. pose proof (ls_tidy _ _ Hls) as Ht. pose proof (file_at_leads _ _ _ _ _ Hl (file_entry _ _ _ Hi)) as Hfa. pose proof (tidy_names _ _ _ Ht Hfa) as Hp.
    assert (names ++ [name] ≠ []) as Hne by (by destruct names).
    assert (s !! join_slash (names ++ [name]) = Some data) as Hs by (apply (ls_files _ _ Hls); by exists (names ++ [name])).
    destruct (file_case _ _ Hs) as [(f & Hf & Hin)|H0].
    - apply inside_names in Hin as (r & Hr & E); [|done..]. destruct (exists_last Hr) as (r' & x & ->). rewrite (assoc_L (++)) in E. apply app_inj_tail in E as [E _].
      by exists f, r'.
    - pose proof (join_slashes names name Hn) as Hsl. destruct (st_rest _ _ Hst _ _ H0) as [E|[E|[E _]]].
      + rewrite E, version_no_slash in Hsl; done.
      + apply inside_names in E as (r & Hr & E); [|done..]. change (split_slash "extensions") with ["extensions"] in E. exfalso. apply Hh. destruct names as [|x names]; [done|]. by injection E as ->.
      + congruence.
  Qed.

  (** * The directory of an object *)
  Lemma object_dirs f : occ f → ∃ l, leads root (split_slash f) l.
  Proof using Hobj Hdom Hls Hap.
    intros Hf. pose proof (occ_clean f Hf) as Hc. destruct (sh_decl _ _ (occ_shaped f Hf)) as [Hd _]. rewrite sub_lookup in Hd by done. apply (ls_files _ _ Hls) in Hd as (names & Hfa & E).
    pose proof (tidy_names _ _ _ (ls_tidy _ _ Hls) Hfa) as Hp. destruct (inside_names f names) as (r & Hr & ->).
    - by eapply file_at_nonempty.
    - done.
    - exists (decl v). by rewrite <- E.
    - destruct Hfa as (dirs & name & sub & E2 & Hl & _). destruct (exists_last Hr) as (r' & x & ->). rewrite (assoc_L (++)) in E2. apply app_inj_tail in E2 as [<- _].
      apply leads_split in Hl as (l1 & Hl & _). by exists l1.
  Qed.
  Lemma object_files f l : occ f → leads root (split_slash f) l → dir_files l = sub_files f s.
  Proof using Hls.
    intros Hf Hl. rewrite (dir_files_sub root s _ l Hls Hl) by apply split_on_nonempty. f_equal. apply (join_split slash).
  Qed.
  Lemma object_decl f l : occ f → leads root (split_slash f) l → (declaration "ocfl_object_" v, File (decl_text v)) ∈ l.
  Proof using Hobj Hdom Hls Hv.
    intros Hf Hl. destruct (sh_decl _ _ (occ_shaped f Hf)) as [Hd _]. rewrite <- (object_files f l Hf Hl) in Hd.
    pose proof (leads_tidy _ _ _ (ls_tidy _ _ Hls) Hl) as Ht. apply (dir_files_lookup _ _ _ Ht) in Hd as (names & Hfa & E).
    destruct (no_slash_names names) as [x ->].
    - by eapply tidy_names.
    - by eapply file_at_nonempty.
    - rewrite <- E. by apply version_no_slash.
    - apply entry_file in Hfa. change (join_slash [x]) with x in E. by rewrite <- E in Hfa.
  Qed.
  Lemma object_tops f l name data : occ f → leads root (split_slash f) l → (name, File data) ∈ l → name = declaration "ocfl_object_" v ∨ str_mem "="%char name = false.
  Proof using Hobj Hdom Hls.
    intros Hf Hl Hi. pose proof (leads_tidy _ _ _ (ls_tidy _ _ Hls) Hl) as Ht. eapply (sh_top _ _ (occ_shaped f Hf)).
    - rewrite <- (object_files f l Hf Hl). apply (dir_files_lookup _ _ _ Ht). exists [name]. split; [by apply file_entry|done].
    - destruct (tidy_plain _ _ _ Ht Hi) as (_ & _ & _ & ?). done.
  Qed.
  Lemma object_hierarchy f l : occ f → leads root (split_slash f) l → hierarchy l.
  Proof using Hobj Hdom Hls Hv.
    intros Hf Hl. pose proof (leads_tidy _ _ _ (ls_tidy _ _ Hls) Hl) as Ht.
    apply C40_sorted_object.
    - exists v, (decl_text v). exact (object_decl f l Hf Hl).
    - pose proof (leads_ordered _ _ _ (ls_ordered _ _ Hls) Hl) as Ho. by inversion Ho.
    - intros name sub Hi. assert (leads root (split_slash f ++ [name]) sub) as Hl2 by (eapply leads_app; [exact Hl|eapply leads_below; [exact Hi|constructor]]).
      assert (split_slash f ++ [name] ≠ []) as Hn2 by (by destruct (split_slash f)). destruct (ls_full _ _ Hls _ _ Hn2 Hl2) as (r & data & Hr). pose proof (file_at_nonempty _ _ _ Hr) as Hrn.
      assert (file_at l (name :: r) data) as Hfa by (apply file_at_entry; exists name, (Dir sub); split; [done|by exists r]).
      assert (sub_files f s !! join_slash (name :: r) = Some data) as Hs.
      { rewrite <- (object_files f l Hf Hl). apply (dir_files_lookup _ _ _ Ht). by exists (name :: r). }
      pose proof (tidy_names _ _ _ Ht Hfa) as Hp. rewrite join_cons in Hs by done.
      assert (str_mem slash (name +:+ "/" +:+ join_slash r) = true) as Hsl by (rewrite !str_mem_app; by destruct (str_mem slash name)).
      assert (∀ d, inside d (join_slash (name :: r)) → str_mem slash d = false → name = d) as Hin.
      { intros d Hd Hds. apply inside_names in Hd as (r2 & _ & E); [|done..]. unfold split_slash in E. rewrite split_on_no_sep in E by done. by injection E as -> _. }
      rewrite join_cons in Hin by done.
      destruct (sh_dirs _ _ (occ_shaped f Hf) _ _ Hs Hsl) as [[r2 E]|[E|E]].
      + left. destruct name as [|c name]; [by apply Forall_inv in Hp as (? & _)|]. injection E as -> _. by exists name.
      + right. left. by apply Hin.
      + right. right. by apply Hin.
    - by apply tidy_nodup.
    - intros name n. by apply tidy_plain.
  Qed.
  Lemma files_or_not (l : tree) : (∃ name data, (name, File data) ∈ l) ∨ ∀ name n, (name, n) ∈ l → ∃ sub, n = Dir sub.
  Proof using.
    clear. induction l as [|[name [d|sub]] l IH]; [right; intros name n Hi; by apply elem_of_nil in Hi|left; exists name, d; apply elem_of_list_here|].
    destruct IH as [(nm & d & Hi)|IH]; [left; exists nm, d; by apply elem_of_list_further|]. right. intros nm n [[= -> ->]|Hi]%elem_of_cons; [by exists sub|by eapply IH].
  Qed.
  Lemma all_hierarchy l : tidy l → ∀ names, leads root names l → names ≠ [] → hd "" names ≠ "extensions" → (∀ f r, occ f → names = split_slash f ++ r → r = []) → hierarchy l.
  Proof using Hobj Hout Hap Hls Hst Hv Hdom.
    induction 1 as [l Hnd Hp Ht IH]. intros names Hl Hn Hh Hno. destruct (files_or_not l) as [(name & data & Hi)|Hd].
    - destruct (dir_case names l name data Hl Hn Hh Hi) as (f & r & Hf & E). pose proof (Hno f r Hf E) as ->. rewrite app_nil_r in E. subst names. by eapply object_hierarchy.
    - apply hierarchy_inner; [|done|].
      + intros name n Hi. split; [by eapply Hp|by eapply Hd].
      + intros name sub Hi. apply (IH name sub Hi (names ++ [name])).
        * eapply leads_app; [exact Hl|eapply leads_below; [exact Hi|constructor]].
        * by destruct names.
        * by destruct names.
        * intros f r Hf E. destruct (decide (r = [])) as [|Hr]; [done|]. destruct (exists_last Hr) as (r' & x & ->). rewrite (assoc_L (++)) in E. apply app_inj_tail in E as [E _].
          pose proof (Hno f r' Hf E) as ->. rewrite app_nil_r in E. subst names.
          (* the object itself has a file *)
          pose proof (object_decl f l Hf Hl) as Hfile. destruct (Hd _ _ Hfile) as [? [=]].
  Qed.
  Lemma root_tidy : tidy_root root.
  Proof using Hobj Hout Hap Hls Hst Hv Hdom.
    pose proof (ls_tidy _ _ Hls) as Ht. split; [by apply tidy_nodup|]. intros name sub Hi. split; [by eapply tidy_plain|]. intros Hne.
    apply (all_hierarchy sub (tidy_sub _ _ _ Ht Hi) [name]); [eapply leads_below; [exact Hi|constructor]|done|done|].
    intros f r Hf E. destruct r as [|x r]; [done|]. pose proof (split_on_nonempty slash f) as Hs. unfold split_slash in E. destruct (split_on slash f) as [|y ys]; [done|]. apply (f_equal length) in E.
    cbn in E. rewrite app_length in E. cbn in E. clear -E. lia.
  Qed.
  (** * The objects that are found *)
  Lemma object_at_prefix l n1 n2 l1 : tidy l → object_at l (n1 ++ n2) → n2 ≠ [] → leads l n1 l1 → ¬ declares l1.
  Proof using.
    clear. intros Ht Ho Hn Hl. revert Ht Ho. induction Hl as [l|l name sub names l' Hi Hl IH]; intros Ht Ho.
    - cbn in Ho. inversion Ho; subst; [done|done].
    - cbn in Ho. inversion Ho as [|? ? sub2 ? Hnd Hi2 Ho2]; subst. pose proof (elem_unique _ _ _ _ (tidy_nodup _ Ht) Hi Hi2) as [= <-]. apply IH; [by eapply tidy_sub|done].
  Qed.
  Lemma object_dir_occ p l : object_dir root p l ↔ occ p ∧ leads root (split_slash p) l.
  Proof using Hobj Hout Hap Hls Hst Hv Hdom Hfree.
    pose proof (ls_tidy _ _ Hls) as Ht. split.
    - intros (name & sub & names & Hi & Hx & Ho & Hl & ->). assert (leads root (name :: names) l) as Hl' by (by eapply leads_below).
      pose proof (leads_names _ _ _ Ht Hl') as Hp. rewrite split_join_names by done. split; [|done].
      assert (declares l) as (w & data & Hd).
      { clear -Ho Hl Ht Hi. pose proof (tidy_sub _ _ _ Ht Hi) as Hts. clear Ht Hi. induction Hl as [l|l nm s2 nms l' Hi2 Hl IH].
        - by inversion Ho; subst.
        - inversion Ho as [|? ? s3 ? Hnd Hi3 Ho3]; subst. pose proof (elem_unique _ _ _ _ (tidy_nodup _ Hts) Hi2 Hi3) as [= <-]. apply IH; [done|by eapply tidy_sub]. }
      destruct (dir_case (name :: names) l _ data Hl' ltac:(done) Hx Hd) as (f & r & Hf & E).
      destruct (decide (r = [])) as [-> |Hr].
      + rewrite app_nil_r in E. rewrite E. by rewrite (join_split slash).
      + exfalso. destruct (object_dirs f Hf) as [l1 Hl1]. pose proof (split_on_nonempty slash f) as Hsf. unfold split_slash in E, Hl1. destruct (split_on slash f) as [|y ys] eqn:Es; [done|].
        injection E as -> ->. inversion Hl1 as [|? ? sub2 ? ? Hi2 Hl2]; subst. pose proof (elem_unique _ _ _ _ (tidy_nodup _ Ht) Hi Hi2) as [= <-].
        apply (object_at_prefix sub ys r l1); [by eapply tidy_sub|done|done|done|]. exists v, (decl_text v). apply (object_decl f l1 Hf). unfold split_slash. rewrite Es. done.
    - intros [Hf Hl]. pose proof (occ_clean p Hf) as Hc. unfold split_slash in Hl. destruct (split_on slash p) as [|name names] eqn:Es; [by apply split_on_nonempty in Es|].
      inversion Hl as [|? ? sub ? ? Hi Hl2]; subst. exists name, sub, names. split; [done|]. split; [|split; [|split; [done|]]].
      + destruct Hf as (id & ts & Hfp & HH). destruct (Hfree id p (Hdom _ _ HH) Hfp) as [Hne Hnin]. intros ->. destruct names as [|x names].
        * apply Hne. rewrite <- (join_split slash p), Es. done.
        * apply Hnin. rewrite <- (join_split slash p), Es. by exists (join_slash (x :: names)).
      + assert (∀ n1 n2 l1, names = n1 ++ n2 → leads sub n1 l1 → leads l1 n2 l → object_at l1 n2) as Hgo.
        { intros n1 n2. revert n1. induction n2 as [|x n2 IH]; intros n1 l1 E H1 H2.
          - inversion H2; subst. apply object_here. exists v, (decl_text v). apply (object_decl p l Hf). unfold split_slash. by rewrite Es.
          - inversion H2 as [|? ? s2 ? ? Hi2 Hl3]; subst. eapply object_below; [|exact Hi2|].
            + intros (w & data & Hd). assert (leads root (name :: n1) l1) as Hl4 by (by eapply leads_below).
              assert (name ≠ "extensions") as Hx.
              { destruct Hf as (id & ts & Hfp & HH). destruct (Hfree id p (Hdom _ _ HH) Hfp) as [_ Hnin]. intros ->. apply Hnin. rewrite <- (join_split slash p), Es.
                exists (join_slash (n1 ++ x :: n2)). by destruct n1. }
              destruct (dir_case (name :: n1) l1 _ data Hl4 ltac:(done) Hx Hd) as (g & r & Hg & E).
              apply (occ_apart g p Hg Hf). assert (split_slash p = split_slash g ++ (r ++ x :: n2)) as E2.
              { unfold split_slash at 1. rewrite Es. change (name :: n1 ++ x :: n2) with ((name :: n1) ++ x :: n2). rewrite E. by rewrite (assoc_L (++)). }
              rewrite <- (join_split slash p). change (inside g (join_slash (split_slash p))). rewrite E2. apply names_inside. by destruct r.
            + apply (IH (n1 ++ [x])); [by rewrite <- (assoc_L (++))| |done]. eapply leads_app; [exact H1|eapply leads_below; [exact Hi2|constructor]]. }
        apply (Hgo [] names); [done|constructor|done].
      + rewrite <- (join_split slash p), Es. done.
  Qed.
  (** * Declarations *)
  Lemma equals_in pre name a w b : name = a +:+ declaration pre w +:+ b → str_mem "="%char name = true.
  Proof using. clear. intros ->. unfold declaration. rewrite !str_mem_app. change (str_mem "="%char "0=") with true. by destruct (str_mem _ a). Qed.
  Lemma object_named p l : object_dir root p l → well_named "ocfl_object_" l ∧ one_declaration "ocfl_object_" v l.
  Proof using Hobj Hout Hap Hls Hst Hv Hdom Hfree.
    intros [Hf Hl]%object_dir_occ. split.
    - intros name data Hi a w b E Hw. exists v. split; [by apply version_known|]. destruct (object_tops p l name data Hf Hl Hi) as [?|Hm]; [done|]. pose proof (equals_in _ _ _ _ _ E). congruence.
    - split; [by apply version_known|]. split; [exists (decl_text v); split; [by apply (object_decl p l)|by left]|].
      intros w data Hw Hi. destruct (object_tops p l _ data Hf Hl Hi) as [E|Hm].
      + unfold declaration in E. by simplify_eq/=.
      + pose proof (equals_in "ocfl_object_" (declaration "ocfl_object_" w) "" w "" ltac:(by rewrite str_app_nil_r)) as E. congruence.
  Qed.
  Lemma root_tops name data : (name, File data) ∈ root → s0 !! name = Some data.
  Proof using Hobj Hout Hap Hls.
    intros Hi. pose proof (tidy_plain _ _ _ (ls_tidy _ _ Hls) Hi) as (_ & _ & _ & Hsl).
    assert (s !! name = Some data) as Hs by (apply (ls_files _ _ Hls); exists [name]; split; [by apply file_entry|done]).
    destruct (file_case _ _ Hs) as [(f & _ & r & ->)|?]; [|done]. rewrite !str_mem_app in Hsl. change (str_mem slash "/") with true in Hsl. by destruct (str_mem slash f).
  Qed.
  Lemma root_names name data : (name, File data) ∈ root → name = declaration "ocfl_" v ∨ str_mem "="%char name = false.
  Proof using Hobj Hout Hap Hls Hst.
    intros Hi. pose proof (tidy_plain _ _ _ (ls_tidy _ _ Hls) Hi) as (_ & _ & _ & Hsl). destruct (st_rest _ _ Hst _ _ (root_tops _ _ Hi)) as [?|[[r ->]|[_ ?]]]; [by left| |by right].
    rewrite !str_mem_app in Hsl. done.
  Qed.
  Lemma root_named : well_named "ocfl_" root ∧ one_declaration "ocfl_" v root.
  Proof using Hobj Hout Hap Hls Hst Hv Hdom.
    split.
    - intros name data Hi a w b E Hw. exists v. split; [by apply version_known|]. destruct (root_names name data Hi) as [?|Hm]; [done|]. pose proof (equals_in _ _ _ _ _ E). congruence.
    - split; [by apply version_known|]. split.
      + exists ("ocfl_" +:+ v +:+ String "010" ""). split; [|by left]. pose proof (st_declared _ _ Hst) as Hd.
        assert (str_mem slash (declaration "ocfl_" v) = false) as Hsl by (by apply version_no_slash).
        rewrite <- Hout in Hd.
        2:{ intros id f _ _ [r E]. rewrite E, !str_mem_app in Hsl. change (str_mem slash "/") with true in Hsl. by destruct (str_mem slash f). }
        apply (ls_files _ _ Hls) in Hd as (names & Hfa & E). destruct (no_slash_names names) as [x ->].
        * eapply tidy_names; [apply Hls|done].
        * by eapply file_at_nonempty.
        * by rewrite <- E.
        * change (join_slash [x]) with x in E. subst x. by apply entry_file.
      + intros w data Hw Hi. destruct (root_names _ data Hi) as [E|Hm].
        * unfold declaration in E. by simplify_eq/=.
        * pose proof (equals_in "ocfl_" (declaration "ocfl_" w) "" w "" ltac:(by rewrite str_app_nil_r)) as E. congruence.
  Qed.
  Lemma not_later : ¬ later v v.
  Proof using Hv.
    intros Hl. assert (version_number v) as Hn by (by apply version_known). apply (decimal_later v v Hn Hn) in Hl. unfold decimal_lt in Hl. apply N.ltb_lt in Hl. clear -Hl. lia.
  Qed.
  Lemma fill_regular create : (∀ e, extensions_of root e → managed create e ∧ ∀ name, ¬ unknown create e name) →
    (∀ p l e, object_dir root p l → extensions_of l e → managed create e) → regular create root.
  Proof using Hobj Hout Hap Hls Hst Hv Hdom Hfree.
    intros H1 H2. constructor; [exact root_tidy|apply root_named|done|]. intros p l Hp. split; [|split; [by apply (object_named p l)|by intros e; apply H2 with p]].
    apply object_dir_occ in Hp as [_ Hl]. apply tidy_nodup. eapply leads_tidy; [apply Hls|exact Hl].
  Qed.
  Lemma fill_good hash decode w lx create : (∀ e, extensions_of root e → managed create e ∧ ∀ name, ¬ unknown create e name) →
    (∀ p l e, object_dir root p l → extensions_of l e → managed create e) →
    (∀ id ts f, H !! id = Some ts → root_path (rt_layouts rt) id = Some (f, false) → only_warnings (validate_object hash decode w lx (sub_files f s))) →
    ∃ fs, validate_root hash decode w lx create root = RDone fs ∧ ∀ x, x ∈ fs → warning (snd x).
  Proof using Hobj Hout Hap Hls Hst Hv Hdom Hfree.
    intros H1 H2 H3. apply (root_good hash decode w lx create root (fill_regular create H1 H2)). exists v. split; [destruct Hv as [E|E]; rewrite E; unfold known_version; auto|].
    split; [apply root_named|]. intros p l Hp. exists v. split; [by apply (object_named p l)|]. split; [exact not_later|].
    apply object_dir_occ in Hp as [Hf Hl]. rewrite (object_files p l Hf Hl). destruct Hf as (id & ts & Hfp & HH). by eapply H3.
  Qed.
End fill.
