(** A concrete representation of documents, to show that the hypotheses about nlohmann's
    dump and parse can be met. *)
From Coq Require Import ZArith Ascii String Lia.
From Verif Require Import M_Base P_Base M_Double M_Json M_Mode M_Key M_Metadata M_Fs M_Attributes M_Container M_Store M_S3 M_S3Container S_S3 S_S3Container.
Import ListNotations.
Set Implicit Arguments.
Local Open Scope list_scope.
Local Open Scope N_scope.

Fixpoint json_nested (P : json -> Prop) (Pn : P JNull) (Pb : forall b, P (JBool b)) (Pi : forall z, P (JInt z)) (Pu : forall n, P (JUInt n))
    (Pr : forall x, P (JReal x)) (Ps : forall s, P (JStr s)) (Pa : forall l, Forall P l -> P (JArr l))
    (Po : forall l, Forall (fun kv => P (snd kv)) l -> P (JObj l)) (j : json) : P j :=
  let rec := json_nested Pn Pb Pi Pu Pr Ps Pa Po in
  match j with
  | JNull => Pn | JBool b => Pb b | JInt z => Pi z | JUInt n => Pu n | JReal x => Pr x | JStr s => Ps s
  | JArr l => Pa l ((fix go l : Forall P l := match l with [] => Forall_nil _ | x :: r => Forall_cons _ (rec x) (go r) end) l)
  | JObj l => Po l ((fix go l : Forall (fun kv => P (snd kv)) l :=
                       match l with [] => Forall_nil _ | x :: r => Forall_cons (P := fun kv => P (snd kv)) x (rec (snd x)) (go r) end) l)
  end.

(** * Writing *)
Definition put_bool (b : bool) : bytes := [if b then 1 else 0].
Definition put_Z (z : Z) : bytes := [if (z <? 0)%Z then 1 else 0; Z.abs_N z].
Fixpoint put_chars (s : string) : bytes := match s with EmptyString => [] | String c r => N_of_ascii c :: put_chars r end.
Definition put_str (s : string) : bytes := N.of_nat (String.length s) :: put_chars s.
Fixpoint put_json (j : json) : bytes :=
  match j with
  | JNull => [0]
  | JBool b => 1 :: put_bool b
  | JInt z => 2 :: put_Z z
  | JUInt n => [3; n]
  | JReal DNan => [4]
  | JReal (DInf s) => 5 :: put_bool s
  | JReal (DZero s) => 6 :: put_bool s
  | JReal (DFin s m e) => 7 :: put_bool s ++ [Npos m] ++ put_Z e
  | JStr s => 8 :: put_str s
  | JArr l => 9 :: lenN l :: flat_map put_json l
  | JObj l => 10 :: lenN l :: flat_map (fun kv => match kv with (k, v) => put_str k ++ put_json v end) l
  end.

(** * Reading: the value and the rest *)
Definition get_bool (b : bytes) : option (bool * bytes) := match b with x :: r => Some (x =? 1, r) | [] => None end.
Definition get_Z (b : bytes) : option (Z * bytes) :=
  match b with s :: a :: r => Some (if s =? 1 then (- Z.of_N a)%Z else Z.of_N a, r) | _ => None end.
Fixpoint get_chars (k : nat) (b : bytes) : option (string * bytes) :=
  match k with
  | O => Some (EmptyString, b)
  | S k => match b with
           | c :: r => match get_chars k r with Some (s, r') => Some (String (ascii_of_N c) s, r') | None => None end
           | [] => None
           end
  end.
Definition get_str (b : bytes) : option (string * bytes) := match b with l :: r => get_chars (N.to_nat l) r | [] => None end.
Fixpoint get_many {A} (get : bytes -> option (A * bytes)) (k : nat) (b : bytes) : option (list A * bytes) :=
  match k with
  | O => Some ([], b)
  | S k => match get b with
           | Some (x, r) => match get_many get k r with Some (l, r') => Some (x :: l, r') | None => None end
           | None => None
           end
  end.
Fixpoint get_json (fuel : nat) (b : bytes) : option (json * bytes) :=
  match fuel with
  | O => None
  | S f =>
      match b with
      | 0 :: r => Some (JNull, r)
      | 1 :: r => match get_bool r with Some (x, r) => Some (JBool x, r) | None => None end
      | 2 :: r => match get_Z r with Some (x, r) => Some (JInt x, r) | None => None end
      | 3 :: n :: r => Some (JUInt n, r)
      | 4 :: r => Some (JReal DNan, r)
      | 5 :: r => match get_bool r with Some (x, r) => Some (JReal (DInf x), r) | None => None end
      | 6 :: r => match get_bool r with Some (x, r) => Some (JReal (DZero x), r) | None => None end
      | 7 :: r => match get_bool r with
                  | Some (x, Npos m :: r) => match get_Z r with Some (e, r) => Some (JReal (DFin x m e), r) | None => None end
                  | _ => None
                  end
      | 8 :: r => match get_str r with Some (x, r) => Some (JStr x, r) | None => None end
      | 9 :: k :: r => match get_many (get_json f) (N.to_nat k) r with Some (l, r) => Some (JArr l, r) | None => None end
      | 10 :: k :: r =>
          match get_many (fun b => match get_str b with
                                   | Some (s, b) => match get_json f b with Some (j, b) => Some ((s, j), b) | None => None end
                                   | None => None
                                   end) (N.to_nat k) r with
          | Some (l, r) => Some (JObj l, r)
          | None => None
          end
      | _ => None
      end
  end.

Fixpoint depth (j : json) : nat :=
  match j with
  | JArr l => S (fold_right (fun x m => Nat.max (depth x) m) O l)
  | JObj l => S (fold_right (fun kv m => match kv with (k, x) => Nat.max (depth x) m end) O l)
  | _ => 1%nat
  end.

Lemma bool_back b r : get_bool (put_bool b ++ r) = Some (b, r).
Proof. now destruct b. Qed.
Lemma Z_back z r : get_Z (put_Z z ++ r) = Some (z, r).
Proof.
  unfold put_Z, get_Z. cbn [app]. rewrite N2Z.inj_abs_N. destruct (Z.ltb_spec z 0) as [L|L].
  - change (1 =? 1) with true. cbv iota. replace (- Z.abs z)%Z with z by lia. reflexivity.
  - change (0 =? 1) with false. cbv iota. replace (Z.abs z) with z by lia. reflexivity.
Qed.
Lemma chars_back s r : get_chars (String.length s) (put_chars s ++ r) = Some (s, r).
Proof. induction s as [|c s IH]; [reflexivity|]. cbn. now rewrite IH, ascii_N_embedding. Qed.
Lemma str_back s r : get_str (put_str s ++ r) = Some (s, r).
Proof. cbn. rewrite Nnat.Nat2N.id. apply chars_back. Qed.
Lemma many_back A (put : A -> bytes) get l : (forall x r, In x l -> get (put x ++ r) = Some (x, r)) ->
  forall r, get_many get (List.length l) (flat_map put l ++ r) = Some (l, r).
Proof.
  induction l as [|x l IH]; intros H r; [reflexivity|]. cbn. rewrite <- app_assoc, H by now left. rewrite IH; [reflexivity|].
  intros y q I. apply H. now right.
Qed.

Lemma json_back j : forall f r, (depth j <= f)%nat -> get_json f (put_json j ++ r) = Some (j, r).
Proof.
  induction j as [|b|z|k|x|s|l IH|l IH] using json_nested; intros [|f] r D; try (cbn in D; lia).
  - reflexivity.
  - destruct b; reflexivity.
  - cbn [put_json app get_json]. now rewrite Z_back.
  - reflexivity.
  - destruct x as [|s|s|s m e]; cbn [put_json app get_json]; [reflexivity|now rewrite bool_back|now rewrite bool_back|].
    rewrite <- app_assoc, bool_back. cbn [app]. now rewrite Z_back.
  - cbn [put_json app get_json]. now rewrite str_back.
  - cbn [put_json app get_json]. unfold lenN. rewrite Nnat.Nat2N.id, many_back; [reflexivity|]. intros x r' I.
    apply (proj1 (Forall_forall _ _) IH x I). cbn [depth] in D. assert (depth x <= fold_right (fun x m => Nat.max (depth x) m) 0 l)%nat; [|lia].
    clear -I. induction l as [|y l IH]; [easy|]. cbn. destruct I as [->|I]; [lia|]. specialize (IH I). lia.
  - cbn [put_json app get_json]. unfold lenN. rewrite Nnat.Nat2N.id, many_back; [reflexivity|]. intros [k x] r' I.
    rewrite <- app_assoc, str_back. rewrite (proj1 (Forall_forall _ _) IH (k, x) I); [reflexivity|]. cbn [depth snd] in *.
    assert (depth x <= fold_right (fun kv m => match kv with (k, x) => Nat.max (depth x) m end) 0 l)%nat; [|lia].
    clear -I. induction l as [|[k' y] l IH]; [easy|]. cbn. destruct I as [[= -> ->]|I]; [lia|]. specialize (IH I). lia.
Qed.

(** The first number is the depth. *)
Definition ex_text : text_codec := TextCodec
  (fun j => N.of_nat (depth (reparse j)) :: put_json (reparse j))
  (fun b => match b with
            | d :: r => match get_json (N.to_nat d) r with Some (j, []) => Some j | _ => None end
            | [] => None
            end).

Theorem ex_text_ok : text_ok ex_text.
Proof.
  intros j. split; [|discriminate]. cbn [dump parse ex_text]. rewrite Nnat.Nat2N.id.
  pose proof (@json_back (reparse j) (depth (reparse j)) [] (le_n _)) as H. rewrite app_nil_r in H. now rewrite H.
Qed.
