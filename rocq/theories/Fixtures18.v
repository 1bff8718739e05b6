(** Sessions with the filesystem extension, for the examples of C74. *)
From Coq Require Import Ascii.
From stdpp Require Import base list strings gmap.
From Coq Require Import ZArith Lia.
From Verif Require Import GoStr PathModel InventoryModel ObjectModel InventorySpec ObjectSpec CrashSpec LoadModel AreaModel AreaSpec ValidateModel ValidateSpec PublishSpec
  Fixtures Fixtures2 Fixtures3 Fixtures5 Fixtures8 JsonlModel JsonlSpec Fixtures10 MigrateModel Fixtures12 FsModel FsSpec.
From Verif Require Fixtures16.

(** A line: path, version and metadata with bars between them. *)
Definition lf : printer (string * string) := Printer (λ p e, p +:+ "|" +:+ e.1 +:+ "|" +:+ e.2)
  (λ t, match split_bar t with [p; v; r] => Some (p, (v, r)) | _ => None end).
Definition readableb (e : string * (string * string)) : bool := bool_decide (l_parse lf (l_print lf e.1 e.2) = Some e) && one_lineb (l_print lf e.1 e.2).
Lemma readableb_true e : readableb e = true → readable lf e.
Proof. intros [H1 H2]%andb_prop. apply bool_decide_eq_true in H1. split; [exact H1|by apply one_lineb_true]. Qed.

Inductive fop := FFile (data src area : string) (dedup : bool) (st : fstat string) | FDir (src area : string) (st : fstat string) | FOp (op : sop) | FBegin | FEnd.
Section runs.
  Context (E : env) (l : list subpaths) (J : jstore) (folders : string).
  Fixpoint fcallsb (ops : list fop) (o : object) (x : ixst (string * string)) : option (object * ixst (string * string)) :=
    match ops with
    | [] => Some (o, x)
    | FFile data src area dedup st :: ops =>
        if guardb E (SAdd data src area dedup) o then
          match fs_add_file E dflt data src area dedup st o x with (o', x', SOk) => fcallsb ops o' x' | _ => None end
        else None
    | FDir src area st :: ops =>
        if guardb E (SAddReader "" [path_join [src; folders]] area) o ||
           match e_hash E (inv_alg (ob_inv o)) "" with Some d => bool_decide (is_Some (inv_manifest (ob_inv o) !! d)) | None => false end then
          match fs_add_dir E dflt folders src area st o x with (o', x', SOk) => fcallsb ops o' x' | _ => None end
        else None
    | FOp op :: ops =>
        if guardb E op o then match ostep E dflt (OSimple op) o with (o', SOk) => fcallsb ops o' x | _ => None end else None
    | FBegin :: ops => match ostep E dflt OBeginArea o with (o', SOk) => fcallsb ops o' x | _ => None end
    | FEnd :: ops => match ostep E dflt OEndArea o with (o', SOk) => fcallsb ops o' x | _ => None end
    end.
  Lemma fcallsb_true ops o x o' x' : fcallsb ops o x = Some (o', x') → fcalls E folders o x o' x'.
  Proof using.
    revert o x. induction ops as [|[data src area dedup st|src area st|op| |] ops IH]; intros o x; cbn [fcallsb].
    - intros [= <- <-]. constructor.
    - destruct (guardb E _ o) eqn:Hg; [|done]. destruct (fs_add_file E dflt data src area dedup st o x) as [[o1 x1] []] eqn:Hs; [|done..]. intros H.
      eapply fcalls_file; [by apply guardb_true|exact Hs|by apply IH].
    - destruct (guardb E _ o || _) eqn:Hg; [|done]. destruct (fs_add_dir E dflt folders src area st o x) as [[o1 x1] []] eqn:Hs; [|done..]. intros H.
      eapply fcalls_folder; [exact dflt_ok| |exact Hs|by apply IH]. intros Hn. apply orb_prop in Hg as [Hg|Hg]; [by apply guardb_true|]. exfalso.
      destruct (e_hash E (inv_alg (ob_inv o)) "") as [d|] eqn:Hd; [|done]. apply bool_decide_eq_true in Hg as [y Hy]. by rewrite (Hn d eq_refl) in Hy.
    - destruct (guardb E op o) eqn:Hg; [|done]. destruct (ostep E dflt (OSimple op) o) as [o1 []] eqn:Hs; [|done..]. intros H.
      eapply (fcalls_other E folders dflt (OSimple op)); [done|by apply guardb_true|exact Hs|done|by apply IH].
    - destruct (ostep E dflt OBeginArea o) as [o1 []] eqn:Hs; [|done..]. intros H. eapply (fcalls_other E folders dflt OBeginArea); [done|done|exact Hs|done|by apply IH].
    - destruct (ostep E dflt OEndArea o) as [o1 []] eqn:Hs; [|done..]. intros H. eapply (fcalls_other E folders dflt OEndArea); [done|exact I|exact Hs|done|by apply IH].
  Qed.
  (** Storage, inventory and lines after a session. *)
  Definition runf (echo : bool) (ops : list fop) (a b : list sop) (s : storage) (i : inventory) : option (storage * inventory * list (string * (string * string))) :=
    match ob_start "2024-01-01T00:00:00Z" "msg" "me" "mailto:me" echo (open_object i) with
    | (o1, SOk) =>
        '(o2, x) ← fcallsb ops o1 ix_new;
        if inv_modified (ob_inv o2) then
          match (if ob_echo o2 then ob_echo_delete E dflt o2 else (o2, SOk)) with
          | (o3, SOk) =>
              o4 ← Fixtures16.sopsb E a o3;
              if sideb E l J o4 then
                match fs_after zc lf E l J dflt o4 x with
                | (o5, x5, SOk) =>
                    o6 ← Fixtures16.sopsb E b o5;
                    match on_inv (clean dflt) o6 with
                    | (o7, SOk) =>
                        match store_inventory E true false o7 with
                        | (o8, SOk) =>
                            match ob_close E dflt o8 with
                            | (o9, SOk) =>
                                match ix_buf x !! inv_head (ob_inv o4) with
                                | Some lines => if forallb readableb lines then Some (apply_evs (ob_trace o9) s, ob_inv o9, lines) else None
                                | None => None
                                end
                            | _ => None
                            end
                        | _ => None
                        end
                    | _ => None
                    end
                | _ => None
                end
              else None
          | _ => None
          end
        else None
    | _ => None
    end.
  Lemma runf_true echo ops a b s i s' i' lines :
    runf echo ops a b s i = Some (s', i', lines) → fsession E zc lf l J folders s i s' i' lines.
  Proof using.
    unfold runf. destruct (ob_start _ _ _ _ _ _) as [o1 []] eqn:E1; [|done..]. destruct (fcallsb ops o1 ix_new) as [[o2 x]|] eqn:E2; [|done]. cbn [mbind option_bind].
    destruct (inv_modified _) eqn:E3; [|done]. destruct (if ob_echo o2 then _ else _) as [o3 []] eqn:E4; [|done..].
    destruct (Fixtures16.sopsb E a o3) as [o4|] eqn:E5; [|done]. cbn [mbind option_bind]. destruct (sideb E l J o4) eqn:E6; [|done].
    destruct (fs_after zc lf E l J dflt o4 x) as [[o5 x5] []] eqn:E7; [|done..]. destruct (Fixtures16.sopsb E b o5) as [o6|] eqn:E8; [|done]. cbn [mbind option_bind].
    destruct (on_inv (clean dflt) o6) as [o7 []] eqn:E9; [|done..]. destruct (store_inventory E true false o7) as [o8 []] eqn:E10; [|done..].
    destruct (ob_close E dflt o8) as [o9 []] eqn:E11; [|done..]. destruct (ix_buf x !! inv_head (ob_inv o4)) as [ls|] eqn:E12; [|done].
    destruct (forallb readableb ls) eqn:E13; [|done]. intros [= <- <- <-].
    destruct (Fixtures16.sopsb_sops _ _ _ _ E5) as [G5 R5]. destruct (Fixtures16.sopsb_sops _ _ _ _ E8) as [G8 R8].
    eapply FSession; [exact E1|by eapply fcallsb_true|exact E3|exact E4|exact G5|exact R5|by apply sideb_true|exact E7|exact G8|exact R8|exact E9|exact E10|exact E11|done|done|exact E12|].
    rewrite stdpp.list.Forall_forall. intros p Hp. rewrite forallb_forall in E13. apply readableb_true, E13. by apply elem_of_list_In.
  Qed.
End runs.

(** One session and two sessions with a new object. *)
Section histories.
  Context (E : env) (Hh : e_hash E = hexh) (Hs : ∀ i, asup i = true → supported E i) (l : list subpaths) (J : jstore) (folders : string).
  Definition runf1 (echo : bool) (ops : list fop) (a b : list sop) : option (storage * inventory * inventory * list (string * (string * string))) :=
    '(s1, i1, l1) ← runf E l J folders echo ops a b store0 fresh0;
    i2 ← aload s1;
    if asup fresh0 then Some (s1, i1, i2, l1) else None.
  Definition runf2 (echo : bool) (ops1 ops2 : list fop) (a b : list sop)
      : option (storage * inventory * inventory * list (string * (string * string)) * list (string * (string * string))) :=
    '(s1, i1, i2, l1) ← runf1 false ops1 [] [];
    if asup i2 then
      '(s2, i3, l2) ← runf E l J folders echo ops2 a b s1 i2;
      i4 ← aload s2;
      if bool_decide (inv_head i1 = "v1" ∧ inv_head i3 = "v2") then Some (s2, i3, i4, l1, l2) else None
    else None.
  Notation stated := (stated E (λ _, True) jparse zc lf l J folders).
  Lemma runf1_true echo ops a b s i i' l1 : runf1 echo ops a b = Some (s, i, i', l1) →
    stated s i {[ inv_head i := l1 ]} ∧ load_inventory (e_hash E) jparse s "" = LInv i' [].
  Proof using Hh Hs.
    unfold runf1. destruct (runf E l J folders echo ops a b store0 fresh0) as [[[s1 i1] ls]|] eqn:E1; [|done]. cbn [mbind option_bind].
    destruct (aload s1) as [i2|] eqn:E2; [|done]. cbn [mbind option_bind]. destruct (asup fresh0) eqn:E3; [|done]. intros [= <- <- <- <-].
    rewrite Hh. split; [|exact (aload_true s1 i2 E2)]. eapply stated_first; [exact fresh0_fresh|exact store0_declared|exact (Hs fresh0 E3)|exact (runf_true _ _ _ _ _ _ _ _ _ _ _ _ _ E1)|exact I].
  Qed.
  Lemma runf2_true echo ops1 ops2 a b s i i' l1 l2 : runf2 echo ops1 ops2 a b = Some (s, i, i', l1, l2) →
    stated s i {[ "v2" := l2; "v1" := l1 ]} ∧ load_inventory (e_hash E) jparse s "" = LInv i' [].
  Proof using Hh Hs.
    unfold runf2. destruct (runf1 false ops1 [] []) as [[[[s1 i1] i2] ls]|] eqn:E1; [|done]. cbn [mbind option_bind].
    destruct (asup i2) eqn:E2; [|done]. destruct (runf E l J folders echo ops2 a b s1 i2) as [[[s2 i3] ls2]|] eqn:E3; [|done]. cbn [mbind option_bind].
    destruct (aload s2) as [i4|] eqn:E4; [|done]. cbn [mbind option_bind]. destruct (bool_decide _) eqn:E5; [|done]. apply bool_decide_eq_true in E5 as [Q1 Q2].
    intros [= <- <- <- <- <-]. destruct (runf1_true _ _ _ _ _ _ _ _ E1) as [P1 P2]. rewrite Q1 in P1.
    split; [|rewrite Hh; exact (aload_true s2 i4 E4)]. rewrite <- Q2. eapply stated_next; [exact P1|exact P2|exact (Hs i2 E2)|exact (runf_true _ _ _ _ _ _ _ _ _ _ _ _ _ E3)|exact I].
  Qed.
End histories.
Lemma psup_true i : asup i = true → supported penv i.
Proof. exact (supportedb_true jjson i). Qed.
Lemma penv_by : manifest_by penv [].
Proof. done. Qed.

Definition jfs : jstore := JStore "filesystem" "brotli" "area" "metadata" "extensions/NNNN-filesystem".
Lemma jfs_agrees : agreeing [areas2] jfs.
Proof. eapply agreeing_area; [done|done|by vm_compute|apply clean_relb_true; by vm_compute]. Qed.
Definition jfs_plain : jstore := JStore "filesystem" "none" "area" "metadata" "".

(** A check of all lines of a report. *)
Lemma entries_all {R} (r : gmap string (gmap string (list (string * (string * R))))) (P : string * (string * R) → Prop) :
  map_Forall (λ _ m, map_Forall (λ _ ls, Forall P ls) m) r → ∀ d u e, e ∈ entry r d u → P e.
Proof.
  intros H d u e. unfold entry. destruct (r !! d) as [m|] eqn:Hd; [|by intros ?%elem_of_nil]. cbn [mbind option_bind].
  destruct (m !! u) as [ls|] eqn:Hu; [|by intros ?%elem_of_nil]. cbn [default]. intros He. specialize (H d m Hd u ls Hu). rewrite stdpp.list.Forall_forall in H. by apply H.
Qed.
