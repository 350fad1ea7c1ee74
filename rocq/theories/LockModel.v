(** Lockfiles: /repo/cargo-lock/src/lockfile/encoding.rs, lockfile/version.rs, metadata.rs, patch.rs,
    lockfile.rs, dependency.rs.
    The TOML layer (crate [toml]) is not modelled: a file is its decoded document [raw_lock], whose leaves are
    strings.  [split_whitespace] is modelled for ASCII blanks (bytes from 128 up count as non-blank,
    so the model is exact for text whose only white space is ASCII). *)
From Coq Require Import List NArith Ascii String Bool Arith.
From Verif Require Import Base SemverModel StrLib VerText PkgModel UrlModel SumModel.
Import ListNotations.
Local Open Scope string_scope.
Local Open Scope N_scope.
Local Infix "++" := String.append (right associativity, at level 60).

(** ** The document *)
Record raw_package := mkRawPkg {
  rp_name : string; rp_version : string; rp_source : option string; rp_checksum : option string;
  rp_deps : list string; rp_replace : option string }.
(** An entry of [[patch.unused]]. *)
Record raw_patch := mkRawPatch { ru_name : string; ru_version : string; ru_source : option string }.
(** [rl_metadata]: a TOML table, in key order. *)
Record raw_lock := mkRawLock {
  rl_version : option N; rl_packages : list raw_package; rl_root : option raw_package;
  rl_metadata : list (string * string); rl_patch : list raw_patch }.

(** lockfile/version.rs:15-39 [enum ResolveVersion]. *)
Inductive resolve_version := V1 | V2 | V3 | V4.
Definition resolve_version_num (v : resolve_version) : N := match v with V1 => 1 | V2 => 2 | V3 => 3 | V4 => 4 end.
(** version.rs:91-105 [TryFrom<u32>]. *)
Definition resolve_version_of (n : N) : outcome resolve_version :=
  if n =? 1 then Ok V1 else if n =? 2 then Ok V2 else if n =? 3 then Ok V3 else if n =? 4 then Ok V4 else Err.
(** version.rs:63-65 [is_explicit]. *)
Definition is_explicit (v : resolve_version) : bool := 3 <=? resolve_version_num v.
Definition is_v1 (v : resolve_version) : bool := match v with V1 => true | _ => false end.

(** lockfile.rs:20-36 [struct Lockfile]; metadata.rs:15 [Metadata] (BTreeMap, here an association list in
    key order); patch.rs:8-11 [Patch]. *)
Record lockfile := mkLock {
  lk_version : resolve_version; lk_packages : list package; lk_root : option package;
  lk_metadata : list (string * string); lk_patch : list dependency }.

(** ** [BTreeMap<String, String>] *)
Fixpoint meta_insert (k v : string) (m : list (string * string)) : list (string * string) :=
  match m with
  | [] => [(k, v)]
  | (k', v') :: r =>
      match str_cmp k k' with
      | Lt => (k, v) :: m
      | Eq => (k', v) :: r
      | Gt => (k', v') :: meta_insert k v r
      end
  end.
Definition meta_remove (k : string) (m : list (string * string)) : list (string * string) :=
  filter (fun kv => negb (String.eqb (fst kv) k)) m.

(** ** Encodable structures *)
(** encoding.rs:518-555 [EncodableSourceId]. *)
Record enc_source := mkES { es_inner : source_id; es_encoded : bool }.
(** encoding.rs:349-360 [EncodableDependency]. *)
Record enc_dep := mkED { ed_name : string; ed_version : option version; ed_source : option enc_source }.
(** encoding.rs:252-273 [EncodablePackage]. *)
Record enc_package := mkEP {
  ep_name : string; ep_version : version; ep_source : option enc_source; ep_checksum : option (list N);
  ep_deps : list enc_dep; ep_replace : option enc_dep }.

(** [str::split_whitespace] (ASCII blanks). *)
Definition is_blank (a : ascii) : bool := let n := N_of_ascii a in (n =? 32) || ((9 <=? n) && (n <=? 13)).
Fixpoint words_aux (cur : string) (s : string) : list string :=
  match s with
  | EmptyString => if String.eqb cur "" then [] else [srev cur]
  | String a r =>
      if is_blank a then (if String.eqb cur "" then words_aux "" r else srev cur :: words_aux "" r)
      else words_aux (String a cur) r
  end.
Definition words (s : string) : list string := words_aux "" s.

Section Parse.
  Variable norm : string -> option string.

  (** encoding.rs:451-460: the text between the parentheses. *)
  Definition parse_paren_source (s : string) : outcome source_id :=
    if (Nat.ltb (String.length s) 2 || negb (starts_with "(" s) || negb (ends_with ")" s))%bool then Err
    else from_url norm (substring 1 (String.length s - 2) s).
  (** encoding.rs:438-475 [FromStr for EncodableDependency]. *)
  Definition enc_dep_from_str (s : string) : outcome enc_dep :=
    match words s with
    | [] => Err
    | name :: rest =>
        match rest with
        | [] => Ok (mkED name None None)
        | v :: rest2 =>
            let? ver := of_option (parse_version v) in
            match rest2 with
            | [] => Ok (mkED name (Some ver) None)
            | p :: rest3 =>
                let? src := parse_paren_source p in
                match rest3 with
                | [] => Ok (mkED name (Some ver) (Some (mkES src false)))
                | _ => Err
                end
            end
        end
    end.

  Definition opt_outcome {A B} (f : A -> outcome B) (o : option A) : outcome (option B) :=
    match o with None => Ok None | Some a => let? b := f a in Ok (Some b) end.

  (** encoding.rs:253-273: derived [Deserialize for EncodablePackage]; 523-531: the source is read by
      [SourceId]'s [Deserialize] with [encoded] defaulted to false. *)
  Definition enc_package_of_raw (r : raw_package) : outcome enc_package :=
    let? v := of_option (parse_version (rp_version r)) in
    let? s := opt_outcome (from_url norm) (rp_source r) in
    let? c := opt_outcome checksum_from_str (rp_checksum r) in
    let? ds := omap enc_dep_from_str (rp_deps r) in
    let? rep := opt_outcome enc_dep_from_str (rp_replace r) in
    Ok (mkEP (rp_name r) v (option_map (fun i => mkES i false) s) c ds rep).
  (** dependency.rs:17-27: derived [Deserialize for Dependency] (entries of [patch.unused]). *)
  Definition patch_of_raw (r : raw_patch) : outcome dependency :=
    let? v := of_option (parse_version (ru_version r)) in
    let? s := opt_outcome (from_url norm) (ru_source r) in
    Ok (mkDep (ru_name r) v s).

  Definition opt_version_eqb (a : option version) (b : version) : bool :=
    match a with None => true | Some v => version_eqb v b end.
  (** encoding.rs:365-389 [EncodableDependency::resolve]. *)
  Definition dep_resolve (pkgs : list enc_package) (d : enc_dep) : outcome dependency :=
    match find (fun p => String.eqb (ep_name p) (ed_name d) && opt_version_eqb (ed_version d) (ep_version p)
                         && match ed_source d with None => true | Some _ => false end) pkgs with
    | Some p => Ok (mkDep (ep_name p) (ep_version p) (option_map es_inner (ep_source p)))
    | None =>
        let? v := of_option (ed_version d) in
        Ok (mkDep (ed_name d) v (option_map es_inner (ed_source d)))
    end.
  (** encoding.rs:278-297 [EncodablePackage::resolve]; the replacement through [TryFrom], 494-500. *)
  Definition pkg_resolve (pkgs : list enc_package) (p : enc_package) : outcome package :=
    let? ds := omap (dep_resolve pkgs) (ep_deps p) in
    let? rep := opt_outcome (dep_resolve []) (ep_replace p) in
    Ok (mkPkg (ep_name p) (ep_version p) (option_map es_inner (ep_source p)) (ep_checksum p) ds rep).

  (** metadata.rs:11, 28-30 [is_checksum]. *)
  Definition CHECKSUM_PREFIX : string := "checksum ".
  Definition is_checksum_key (k : string) : bool := starts_with CHECKSUM_PREFIX k.
  (** metadata.rs:33-35 [checksum_dependency], 58-71 [TryFrom<&MetadataKey> for Dependency]. *)
  Definition checksum_dependency (k : string) : outcome dependency :=
    match strip_prefix CHECKSUM_PREFIX k with
    | None => Err
    | Some t => let? d := enc_dep_from_str t in dep_resolve [] d
    end.
  (** encoding.rs:57-69 [find_checksum]. *)
  Fixpoint find_checksum (m : list (string * string)) (p : package) : option (list N) :=
    match m with
    | [] => None
    | (k, v) :: r =>
        match checksum_dependency k with
        | Ok d =>
            if String.eqb (d_name d) (p_name p) && version_eqb (d_version d) (p_version p)
            then match checksum_from_str v with Ok c => Some c | _ => None end
            else find_checksum r p
        | _ => find_checksum r p
        end
    end.

  (** version.rs:43-60 [detect]. *)
  Definition detect_version (pkgs : list enc_package) (m : list (string * string)) : outcome resolve_version :=
    let v1 := existsb (fun kv => is_checksum_key (fst kv)) m in
    let v2 := existsb (fun p => match ep_checksum p with Some _ => true | None => false end) pkgs in
    if v1 && v2 then Err else if v1 then Ok V1 else Ok V2.

  Definition with_checksum (p : package) (c : option (list N)) : package :=
    mkPkg (p_name p) (p_version p) (p_source p) c (p_deps p) (p_replace p).

  (** encoding.rs:72-109 [TryFrom<EncodableLockfile> for Lockfile], after deserialisation (19-27). *)
  Definition load (r : raw_lock) : outcome lockfile :=
    let? eps := omap enc_package_of_raw (rl_packages r) in
    let? eroot := opt_outcome enc_package_of_raw (rl_root r) in
    let? patch := omap patch_of_raw (rl_patch r) in
    let? version := match rl_version r with
                    | Some n => resolve_version_of n
                    | None => detect_version eps (rl_metadata r) end in
    let? pkgs := omap (fun p =>
        if is_v1 version then
          let? q := pkg_resolve [] p in Ok (with_checksum q (find_checksum (rl_metadata r) q))
        else pkg_resolve eps p) eps in
    let? root := opt_outcome (pkg_resolve []) eroot in
    Ok (mkLock version pkgs root (rl_metadata r) patch).
End Parse.

(** ** Writing *)
(** encoding.rs:328-338 [encodable_source_id]. *)
Definition encodable_source (v : resolve_version) (s : source_id) : option enc_source :=
  match s_kind s with
  | SPath => None
  | _ => Some (mkES s (4 <=? resolve_version_num v))
  end.
Definition obind_opt {A B} (o : option A) (f : A -> option B) : option B := match o with Some a => f a | None => None end.
(** encoding.rs:425-434 [from_dependency]. *)
Definition enc_of_dep (v : resolve_version) (d : dependency) : enc_dep :=
  mkED (d_name d) (Some (d_version d)) (obind_opt (d_source d) (encodable_source v)).
(** encoding.rs:306-325 [from_package]. *)
Definition enc_of_package (v : resolve_version) (p : package) : enc_package :=
  mkEP (p_name p) (p_version p) (obind_opt (p_source p) (encodable_source v)) (p_checksum p)
    (map (enc_of_dep v) (p_deps p)) (option_map (enc_of_dep v) (p_replace p)).
(** encoding.rs:392-423 [EncodableDependency::v2]. *)
Definition dep_v2 (pkgs : list package) (d : enc_dep) : enc_dep :=
  let matching := filter (fun p => String.eqb (p_name p) (ed_name d)) pkgs in
  if Nat.eqb (List.length matching) 1 then mkED (ed_name d) None None
  else match ed_version d with
       | None => d
       | Some v =>
           if Nat.eqb (List.length (filter (fun p => version_eqb (p_version p) v) matching)) 1
           then mkED (ed_name d) (ed_version d) None
           else d
       end.
(** encoding.rs:477-491 [Display for EncodableDependency]. *)
Definition enc_dep_string (d : enc_dep) : string :=
  ed_name d
  ++ match ed_version d with Some v => " " ++ print_version v | None => "" end
  ++ match ed_source d with Some s => " (" ++ as_url (es_encoded s) (es_inner s) ++ ")" | None => "" end.
(** dependency.rs:36-46 [Display for Dependency]. *)
Definition dep_string (d : dependency) : string :=
  d_name d ++ " " ++ print_version (d_version d)
  ++ match d_source d with Some s => " (" ++ as_url false s ++ ")" | None => "" end.
(** dependency.rs:48-57 [From<&Package> for Dependency]; metadata.rs:23-25 [for_checksum]. *)
Definition dep_of_package (p : package) : dependency := mkDep (p_name p) (p_version p) (p_source p).
Definition checksum_key (p : package) : string := CHECKSUM_PREFIX ++ dep_string (dep_of_package p).

(** encoding.rs:116-139: the loop over the packages ([From<&Lockfile>]). *)
Definition encode_package (l : lockfile) (p : package) : enc_package :=
  let raw := enc_of_package (lk_version l) p in
  if is_v1 (lk_version l)
  then mkEP (ep_name raw) (ep_version raw) (ep_source raw) None (ep_deps raw) (ep_replace raw)
  else mkEP (ep_name raw) (ep_version raw) (ep_source raw) (ep_checksum raw)
         (map (dep_v2 (lk_packages l)) (ep_deps raw)) (ep_replace raw).
Definition encode_meta_step (l : lockfile) (m : list (string * string)) (p : package) : list (string * string) :=
  if is_v1 (lk_version l) then
    match p_checksum p with
    | Some c => meta_insert (checksum_key p) (checksum_string c) m
    | None => m
    end
  else meta_remove (checksum_key p) m.

(** encoding.rs:253-273 derived [Serialize], then 222-250 [emit_package]: the replacement is written only if
    there are no dependencies. *)
Definition raw_of_enc (p : enc_package) : raw_package :=
  mkRawPkg (ep_name p) (print_version (ep_version p))
    (option_map (fun s => as_url (es_encoded s) (es_inner s)) (ep_source p))
    (option_map checksum_string (ep_checksum p))
    (map enc_dep_string (ep_deps p))
    (match ep_deps p with [] => option_map enc_dep_string (ep_replace p) | _ => None end).
(** dependency.rs:17 derived [Serialize], source.rs:289-297 (paths are not written), [emit_package]. *)
Definition raw_of_patch (d : dependency) : raw_patch :=
  mkRawPatch (d_name d) (print_version (d_version d))
    (obind_opt (d_source d) (fun s => match s_kind s with SPath => None | _ => Some (as_url false s) end)).
(** encoding.rs:141-156 and 161-216 [ToString for EncodableLockfile]: version only if at least 3, no root. *)
Definition save (l : lockfile) : raw_lock :=
  mkRawLock (if is_explicit (lk_version l) then Some (resolve_version_num (lk_version l)) else None)
    (map (fun p => raw_of_enc (encode_package l p)) (lk_packages l))
    None
    (fold_left (encode_meta_step l) (lk_packages l) (lk_metadata l))
    (map raw_of_patch (lk_patch l)).
