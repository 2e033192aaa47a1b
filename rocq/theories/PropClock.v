(** * Property C111: every answer about the gateway's clock is read or refused *)
From Coq Require Import String List NArith ZArith Bool Lia.
From Verif Require Import PyStr PyDate Tags Messages SpecMsg SpecTag IO Items SpecItem ItemThms LightThms2 SpecGateway Gateway GatewayThms GatewayThms2 PropGateway SpecClock ClockThms.
Import ListNotations.
Open Scope N_scope.
Open Scope list_scope.

Theorem C111_time : forall it vs (s rest : script), ready it -> placed it -> Forall tagtext vs -> answers vs s rest ->
  exists r, got (Y:=Empty_set) (get_time it s) (frame_dimreq (it_who it) (it_where it) (lit "0")) rest r /\
  (forall t, r = Ok t <-> exists h m s z, time_numbers vs h m s z /\ clock_time h m s /\
     t = {| t_hour := Z.of_N h; t_minute := Z.of_N m; t_second := Z.of_N s; t_offset := (3600 * z)%Z |}) /\
  (r = Err OverflowError <-> exists h m s z, time_numbers vs h m s z /\ (too_big h \/ too_big m \/ too_big s)) /\
  (forall e, r = Err e -> e = ValueError \/ e = OverflowError).
Proof.
  intros it vs s rest Hr Hp Ht Hs. exists (time_of vs). split; [eapply (asked it TIME time_of); eauto|]. apply time_complete, Ht.
Qed.
Print Assumptions C111_time.

(** The day of the week is not looked at. *)
Theorem C111_date : forall it vs (s rest : script), ready it -> placed it -> Forall tagtext vs -> answers vs s rest ->
  exists r, got (Y:=Empty_set) (get_date it s) (frame_dimreq (it_who it) (it_where it) (lit "1")) rest r /\
  (forall t, r = Ok t <-> exists d m y, date_numbers vs d m y /\ t = (Z.of_N y, Z.of_N m, Z.of_N d) /\ calendar_date t) /\
  (r = Err OverflowError <-> exists d m y, date_numbers vs d m y /\ (too_big d \/ too_big m \/ too_big y)) /\
  (forall e, r = Err e -> e = ValueError \/ e = OverflowError).
Proof.
  intros it vs s rest Hr Hp Ht Hs. exists (date_of vs). split; [eapply (asked it DATE date_of); eauto|]. apply date_complete, Ht.
Qed.
Print Assumptions C111_date.

(** Here values after the eighth are ignored, and an answer that is too short
    raises IndexError, if what is there of the time and the date are numbers. *)
Theorem C111_datetime : forall it vs (s rest : script), ready it -> placed it -> Forall tagtext vs -> answers vs s rest ->
  exists r, got (Y:=Empty_set) (get_datetime it s) (frame_dimreq (it_who it) (it_where it) (lit "22")) rest r /\
  (forall dt t, r = Ok (dt, t) <-> exists h m s z d mo y, datetime_numbers vs h m s z d mo y /\ clock_time h m s /\
     dt = (Z.of_N y, Z.of_N mo, Z.of_N d) /\ calendar_date dt /\
     t = {| t_hour := Z.of_N h; t_minute := Z.of_N m; t_second := Z.of_N s; t_offset := (3600 * z)%Z |}) /\
  (r = Err OverflowError <-> exists h m s z d mo y, datetime_numbers vs h m s z d mo y /\ exists n, In n [y; mo; d; h; m; s] /\ too_big n) /\
  (r = Err IndexError <-> cut_short vs 8 [0; 1; 2; 5; 6]%nat) /\
  (forall e, r = Err e -> e = ValueError \/ e = OverflowError \/ e = IndexError).
Proof.
  intros it vs s rest Hr Hp Ht Hs. exists (datetime_of vs). split; [eapply (asked it DATE_TIME datetime_of); eauto|]. apply datetime_complete, Ht.
Qed.
Print Assumptions C111_datetime.

Theorem C111_uptime : forall it vs (s rest : script), ready it -> placed it -> Forall tagtext vs -> answers vs s rest ->
  exists r, got (Y:=Empty_set) (get_uptime it s) (frame_dimreq (it_who it) (it_where it) (lit "19")) rest r /\
  (forall t, r = Ok t <-> exists d h m s, uptime_numbers vs d h m s /\
     t = (86400 * Z.of_N d + 3600 * Z.of_N h + 60 * Z.of_N m + Z.of_N s)%Z /\ (t < 86400 * 1000000000)%Z) /\
  (r = Err OverflowError <-> exists d h m s, uptime_numbers vs d h m s /\
     (86400 * 1000000000 <= 86400 * Z.of_N d + 3600 * Z.of_N h + 60 * Z.of_N m + Z.of_N s)%Z) /\
  (r = Err IndexError <-> cut_short vs 4 [0; 1; 2]%nat) /\
  (forall e, r = Err e -> e = ValueError \/ e = OverflowError \/ e = IndexError).
Proof.
  intros it vs s rest Hr Hp Ht Hs. exists (uptime_of vs). split; [eapply (asked it UPTIME uptime_of); eauto|]. apply uptime_complete, Ht.
Qed.
Print Assumptions C111_uptime.

Lemma number_ex s : forallb is_digit s = true -> s <> [] -> (N.of_nat (length s) <= 4300) -> number s (SpecTag.value_of 0 s).
Proof.
  intros H Ne L. split; [|split; [exact Ne|split; [reflexivity|exact L]]]. unfold digits. rewrite Forall_forall. rewrite forallb_forall in H.
  intros c I. apply is_digit_range, H, I.
Qed.

(** An answer of each kind: a zone field of four digits, such as set_time
    sends (C54), the 29th of February of no leap year, an hour of 25, a short
    answer, a year that is no C int. *)
Example C111_ex :
  let ask (w : what_gateway) (l : list string) : script := [Some (MDimRes GATEWAY [] (wg_str w) (map lit l)); Some MAck] in
  res_of (get_time (gateway conn) (ask TIME ["23"; "59"; "09"; "0010"]%string) : list (ev Empty_set) * script * res time) =
    Ok {| t_hour := 23; t_minute := 59; t_second := 9; t_offset := 3600 |} /\
  time_numbers [lit "23"; lit "59"; lit "09"; lit "0010"] 23 59 9 1 /\
  res_of (get_time (gateway conn) (ask TIME ["25"; "0"; "0"; "001"]%string) : list (ev Empty_set) * script * res time) = Err ValueError /\
  res_of (get_time (gateway conn) (ask TIME ["5"; "0"; "0"]%string) : list (ev Empty_set) * script * res time) = Err ValueError /\
  res_of (get_date (gateway conn) (ask DATE ["9"; "29"; "02"; "1900"]%string) : list (ev Empty_set) * script * res date) = Err ValueError /\
  res_of (get_date (gateway conn) (ask DATE ["9"; "29"; "02"; "2000"]%string) : list (ev Empty_set) * script * res date) = Ok (2000, 2, 29)%Z /\
  res_of (get_date (gateway conn) (ask DATE ["9"; "29"; "02"; "2147483648"]%string) : list (ev Empty_set) * script * res date) = Err OverflowError /\
  res_of (get_datetime (gateway conn) (ask DATE_TIME ["1"; "2"; "3"; "001"; ""; "4"; "5"]%string) : list (ev Empty_set) * script * res (date * time)) = Err IndexError /\
  res_of (get_datetime (gateway conn) (ask DATE_TIME ["1"; "2"; "3"; "001"; ""; ""; "5"]%string) : list (ev Empty_set) * script * res (date * time)) = Err ValueError /\
  res_of (get_uptime (gateway conn) (ask UPTIME ["1"; "1"; "1"]%string) : list (ev Empty_set) * script * res Z) = Err IndexError /\
  cut_short [lit "1"; lit "1"; lit "1"] 4 [0; 1; 2]%nat.
Proof.
  cbv zeta. split; [vm_compute; reflexivity|]. split.
  { exists (lit "23"), (lit "59"), (lit "09"), (lit "0010"). split; [reflexivity|].
    split; [exact (number_ex (lit "23") eq_refl ltac:(discriminate) ltac:(vm_compute; discriminate))|].
    split; [exact (number_ex (lit "59") eq_refl ltac:(discriminate) ltac:(vm_compute; discriminate))|].
    split; [exact (number_ex (lit "09") eq_refl ltac:(discriminate) ltac:(vm_compute; discriminate))|].
    split; [|reflexivity]. right. exists 48, (lit "010"), 1.
    split; [reflexivity|]. split; [exact (number_ex (lit "01") eq_refl ltac:(discriminate) ltac:(vm_compute; discriminate))|]. split; [intros _; reflexivity|congruence]. }
  do 8 (split; [vm_compute; reflexivity|]). split; [cbn; lia|].
  intros i v [<-|[<-|[<-|[]]]] [= <-]; exists 1; exact (number_ex (lit "1") eq_refl ltac:(discriminate) ltac:(vm_compute; discriminate)).
Qed.
