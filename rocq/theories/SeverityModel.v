(** The score and the severity of a CVSS vector of any version (cvss/src/cvss.rs), and the severity an advisory's queries
    compare with a threshold (rustsec/src/advisory.rs:93-96). *)
From Coq Require Import List ZArith String Bool.
From Verif Require Import Base CvssText CvssFloat Cvss2 Cvss3 Cvss4 DbModel.
Import ListNotations.

(** cvss.rs:46-62 [Cvss::score]. [pow] is [powf(_, 15.0)] of the platform (Cvss3). *)
Definition cvss_score (pow : f64 -> f64) (c : cvss) : outcome f64 :=
  match c with
  | CvssV20 v => Ok (score2 v)
  | CvssV30 b => Ok (score3 pow (slots3 b))
  | CvssV31 b => Ok (score3 pow (slots3 b))
  | CvssV40 v => score4 v
  end.
(** severity.rs:25-41: the two representations of the enum used in these files. *)
Definition rated (r : rating) : severity :=
  match r with RNone => SevNone | RLow => SevLow | RMedium => SevMedium | RHigh => SevHigh | RCritical => SevCritical end.
(** cvss.rs:64-77 [Cvss::severity]: each version rates its own score type (v2/score.rs, v3/score.rs:40-53,
    v4/score.rs:166-178). *)
Definition cvss_severity (pow : f64 -> f64) (c : cvss) : outcome severity :=
  match c with
  | CvssV20 v => Ok (rated (rating2 (score2 v)))
  | CvssV30 b => Ok (rated (rating3 (score3 pow (slots3 b))))
  | CvssV31 b => Ok (rated (rating3 (score3 pow (slots3 b))))
  | CvssV40 v => let? x := score4 v in Ok (rated (rating4 x))
  end.
(** advisory.rs:93-96 [Advisory::severity] has no failure: the severity of a vector whose score is defined. A vector that
    panics has no severity; it is never parsed from a text (C44, C82). *)
Definition sev_of (pow : f64 -> f64) (c : cvss) : severity := match cvss_severity pow c with Ok s => s | _ => SevNone end.
