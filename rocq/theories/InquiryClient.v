(** A client that looks for discovery inquiries among the messages of a UMP connection.  Model of

      fn heard<const V: u8>(m: UmpMessage<Vec<u32>>) -> Option<Result<DiscoveryQuery<V, Vec<u8>>>> {
          match m {
              UmpMessage::Sysex7(m) => {
                  let b = Sysex7::<Vec<u8>>::from_ump(m);
                  Some(DiscoveryQuery::<V, _>::try_from(b.data()).map(|q| q.rebuffer_into()))
              }
              _ => None,
          }
      }

    over the API (sysex7.rs 286-310, ci/discovery.rs, generate_ci.rs 525-585). *)
From Coq Require Import NArith List String.
From Verif Require Import Base Values Message Sysex Splice Ci Aggregate.
Import ListNotations.

Definition heard (v : N) (a : aggregate) : outcome (option (res (list N))) :=
  match fst a with
  | CSysex7 =>
      b <- sysex7_from_ump (snd a) ;;
      d <- data_b b ;;
      r <- ci_try_from v d ;;
      Val (Some (match r with Ok x => Ok (ci_rebuffer_vec x) | Err e => Err e end))
  | _ => Val None
  end.
