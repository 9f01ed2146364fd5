(** * The capacities requested while parsing a packet. *)
From Verif Require Import Base Buffer Fqdn Header Types RDataBasic Bitmap Svcb RDataSec RData Packet.

(** packet.rs:351, 358, 366, 373: the arguments of [Vec::with_capacity], in this order, up to where parsing
    stops.  The runs in between are those of [packet_try_from_buf].  The other calls while parsing ask for
    at most 255 octets (buffer.rs:114). *)
Definition packet_reserves_buf (c : cfg) (b : buf) : list N :=
  match header_try_from b with
  | (Ok h, b1) => ques_count h ::
    match repeatP (N.to_nat (ques_count h)) (question_try_from c) b1 with
    | (Ok _, b2) => ans_count h ::
      match repeatP (N.to_nat (ans_count h)) (rr_try_from c) b2 with
      | (Ok _, b3) => auth_count h ::
        match repeatP (N.to_nat (auth_count h)) (rr_try_from c) b3 with
        | (Ok _, _) => [add_count h]
        | _ => []
        end
      | _ => []
      end
    | _ => []
    end
  | _ => []
  end.
Definition packet_reserves (c : cfg) (d : bytes) : list N := packet_reserves_buf c (buf_from d).
