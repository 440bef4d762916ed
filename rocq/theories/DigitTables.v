(** Base-64 digits with multiplication and addition tables.
    Generated by tools/gen_digits.py.  Models no code: these digits are used to make the
    large-number computations in proofs (primality, curve constants) cheap for the kernel. *)
Inductive dg : Set := d0 | d1 | d2 | d3 | d4 | d5 | d6 | d7 | d8 | d9 | d10 | d11 | d12 | d13 | d14 | d15 | d16 | d17 | d18 | d19 | d20 | d21 | d22 | d23 | d24 | d25 | d26 | d27 | d28 | d29 | d30 | d31 | d32 | d33 | d34 | d35 | d36 | d37 | d38 | d39 | d40 | d41 | d42 | d43 | d44 | d45 | d46 | d47 | d48 | d49 | d50 | d51 | d52 | d53 | d54 | d55 | d56 | d57 | d58 | d59 | d60 | d61 | d62 | d63.

(** a * b = 64 * fst + snd *)
Definition dmul (a b : dg) : dg * dg :=
 match a with
 | d0 => match b with | d0 => (d0, d0) | d1 => (d0, d0) | d2 => (d0, d0) | d3 => (d0, d0) | d4 => (d0, d0) | d5 => (d0, d0) | d6 => (d0, d0) | d7 => (d0, d0) | d8 => (d0, d0) | d9 => (d0, d0) | d10 => (d0, d0) | d11 => (d0, d0) | d12 => (d0, d0) | d13 => (d0, d0) | d14 => (d0, d0) | d15 => (d0, d0) | d16 => (d0, d0) | d17 => (d0, d0) | d18 => (d0, d0) | d19 => (d0, d0) | d20 => (d0, d0) | d21 => (d0, d0) | d22 => (d0, d0) | d23 => (d0, d0) | d24 => (d0, d0) | d25 => (d0, d0) | d26 => (d0, d0) | d27 => (d0, d0) | d28 => (d0, d0) | d29 => (d0, d0) | d30 => (d0, d0) | d31 => (d0, d0) | d32 => (d0, d0) | d33 => (d0, d0) | d34 => (d0, d0) | d35 => (d0, d0) | d36 => (d0, d0) | d37 => (d0, d0) | d38 => (d0, d0) | d39 => (d0, d0) | d40 => (d0, d0) | d41 => (d0, d0) | d42 => (d0, d0) | d43 => (d0, d0) | d44 => (d0, d0) | d45 => (d0, d0) | d46 => (d0, d0) | d47 => (d0, d0) | d48 => (d0, d0) | d49 => (d0, d0) | d50 => (d0, d0) | d51 => (d0, d0) | d52 => (d0, d0) | d53 => (d0, d0) | d54 => (d0, d0) | d55 => (d0, d0) | d56 => (d0, d0) | d57 => (d0, d0) | d58 => (d0, d0) | d59 => (d0, d0) | d60 => (d0, d0) | d61 => (d0, d0) | d62 => (d0, d0) | d63 => (d0, d0) end
 | d1 => match b with | d0 => (d0, d0) | d1 => (d0, d1) | d2 => (d0, d2) | d3 => (d0, d3) | d4 => (d0, d4) | d5 => (d0, d5) | d6 => (d0, d6) | d7 => (d0, d7) | d8 => (d0, d8) | d9 => (d0, d9) | d10 => (d0, d10) | d11 => (d0, d11) | d12 => (d0, d12) | d13 => (d0, d13) | d14 => (d0, d14) | d15 => (d0, d15) | d16 => (d0, d16) | d17 => (d0, d17) | d18 => (d0, d18) | d19 => (d0, d19) | d20 => (d0, d20) | d21 => (d0, d21) | d22 => (d0, d22) | d23 => (d0, d23) | d24 => (d0, d24) | d25 => (d0, d25) | d26 => (d0, d26) | d27 => (d0, d27) | d28 => (d0, d28) | d29 => (d0, d29) | d30 => (d0, d30) | d31 => (d0, d31) | d32 => (d0, d32) | d33 => (d0, d33) | d34 => (d0, d34) | d35 => (d0, d35) | d36 => (d0, d36) | d37 => (d0, d37) | d38 => (d0, d38) | d39 => (d0, d39) | d40 => (d0, d40) | d41 => (d0, d41) | d42 => (d0, d42) | d43 => (d0, d43) | d44 => (d0, d44) | d45 => (d0, d45) | d46 => (d0, d46) | d47 => (d0, d47) | d48 => (d0, d48) | d49 => (d0, d49) | d50 => (d0, d50) | d51 => (d0, d51) | d52 => (d0, d52) | d53 => (d0, d53) | d54 => (d0, d54) | d55 => (d0, d55) | d56 => (d0, d56) | d57 => (d0, d57) | d58 => (d0, d58) | d59 => (d0, d59) | d60 => (d0, d60) | d61 => (d0, d61) | d62 => (d0, d62) | d63 => (d0, d63) end
 | d2 => match b with | d0 => (d0, d0) | d1 => (d0, d2) | d2 => (d0, d4) | d3 => (d0, d6) | d4 => (d0, d8) | d5 => (d0, d10) | d6 => (d0, d12) | d7 => (d0, d14) | d8 => (d0, d16) | d9 => (d0, d18) | d10 => (d0, d20) | d11 => (d0, d22) | d12 => (d0, d24) | d13 => (d0, d26) | d14 => (d0, d28) | d15 => (d0, d30) | d16 => (d0, d32) | d17 => (d0, d34) | d18 => (d0, d36) | d19 => (d0, d38) | d20 => (d0, d40) | d21 => (d0, d42) | d22 => (d0, d44) | d23 => (d0, d46) | d24 => (d0, d48) | d25 => (d0, d50) | d26 => (d0, d52) | d27 => (d0, d54) | d28 => (d0, d56) | d29 => (d0, d58) | d30 => (d0, d60) | d31 => (d0, d62) | d32 => (d1, d0) | d33 => (d1, d2) | d34 => (d1, d4) | d35 => (d1, d6) | d36 => (d1, d8) | d37 => (d1, d10) | d38 => (d1, d12) | d39 => (d1, d14) | d40 => (d1, d16) | d41 => (d1, d18) | d42 => (d1, d20) | d43 => (d1, d22) | d44 => (d1, d24) | d45 => (d1, d26) | d46 => (d1, d28) | d47 => (d1, d30) | d48 => (d1, d32) | d49 => (d1, d34) | d50 => (d1, d36) | d51 => (d1, d38) | d52 => (d1, d40) | d53 => (d1, d42) | d54 => (d1, d44) | d55 => (d1, d46) | d56 => (d1, d48) | d57 => (d1, d50) | d58 => (d1, d52) | d59 => (d1, d54) | d60 => (d1, d56) | d61 => (d1, d58) | d62 => (d1, d60) | d63 => (d1, d62) end
 | d3 => match b with | d0 => (d0, d0) | d1 => (d0, d3) | d2 => (d0, d6) | d3 => (d0, d9) | d4 => (d0, d12) | d5 => (d0, d15) | d6 => (d0, d18) | d7 => (d0, d21) | d8 => (d0, d24) | d9 => (d0, d27) | d10 => (d0, d30) | d11 => (d0, d33) | d12 => (d0, d36) | d13 => (d0, d39) | d14 => (d0, d42) | d15 => (d0, d45) | d16 => (d0, d48) | d17 => (d0, d51) | d18 => (d0, d54) | d19 => (d0, d57) | d20 => (d0, d60) | d21 => (d0, d63) | d22 => (d1, d2) | d23 => (d1, d5) | d24 => (d1, d8) | d25 => (d1, d11) | d26 => (d1, d14) | d27 => (d1, d17) | d28 => (d1, d20) | d29 => (d1, d23) | d30 => (d1, d26) | d31 => (d1, d29) | d32 => (d1, d32) | d33 => (d1, d35) | d34 => (d1, d38) | d35 => (d1, d41) | d36 => (d1, d44) | d37 => (d1, d47) | d38 => (d1, d50) | d39 => (d1, d53) | d40 => (d1, d56) | d41 => (d1, d59) | d42 => (d1, d62) | d43 => (d2, d1) | d44 => (d2, d4) | d45 => (d2, d7) | d46 => (d2, d10) | d47 => (d2, d13) | d48 => (d2, d16) | d49 => (d2, d19) | d50 => (d2, d22) | d51 => (d2, d25) | d52 => (d2, d28) | d53 => (d2, d31) | d54 => (d2, d34) | d55 => (d2, d37) | d56 => (d2, d40) | d57 => (d2, d43) | d58 => (d2, d46) | d59 => (d2, d49) | d60 => (d2, d52) | d61 => (d2, d55) | d62 => (d2, d58) | d63 => (d2, d61) end
 | d4 => match b with | d0 => (d0, d0) | d1 => (d0, d4) | d2 => (d0, d8) | d3 => (d0, d12) | d4 => (d0, d16) | d5 => (d0, d20) | d6 => (d0, d24) | d7 => (d0, d28) | d8 => (d0, d32) | d9 => (d0, d36) | d10 => (d0, d40) | d11 => (d0, d44) | d12 => (d0, d48) | d13 => (d0, d52) | d14 => (d0, d56) | d15 => (d0, d60) | d16 => (d1, d0) | d17 => (d1, d4) | d18 => (d1, d8) | d19 => (d1, d12) | d20 => (d1, d16) | d21 => (d1, d20) | d22 => (d1, d24) | d23 => (d1, d28) | d24 => (d1, d32) | d25 => (d1, d36) | d26 => (d1, d40) | d27 => (d1, d44) | d28 => (d1, d48) | d29 => (d1, d52) | d30 => (d1, d56) | d31 => (d1, d60) | d32 => (d2, d0) | d33 => (d2, d4) | d34 => (d2, d8) | d35 => (d2, d12) | d36 => (d2, d16) | d37 => (d2, d20) | d38 => (d2, d24) | d39 => (d2, d28) | d40 => (d2, d32) | d41 => (d2, d36) | d42 => (d2, d40) | d43 => (d2, d44) | d44 => (d2, d48) | d45 => (d2, d52) | d46 => (d2, d56) | d47 => (d2, d60) | d48 => (d3, d0) | d49 => (d3, d4) | d50 => (d3, d8) | d51 => (d3, d12) | d52 => (d3, d16) | d53 => (d3, d20) | d54 => (d3, d24) | d55 => (d3, d28) | d56 => (d3, d32) | d57 => (d3, d36) | d58 => (d3, d40) | d59 => (d3, d44) | d60 => (d3, d48) | d61 => (d3, d52) | d62 => (d3, d56) | d63 => (d3, d60) end
 | d5 => match b with | d0 => (d0, d0) | d1 => (d0, d5) | d2 => (d0, d10) | d3 => (d0, d15) | d4 => (d0, d20) | d5 => (d0, d25) | d6 => (d0, d30) | d7 => (d0, d35) | d8 => (d0, d40) | d9 => (d0, d45) | d10 => (d0, d50) | d11 => (d0, d55) | d12 => (d0, d60) | d13 => (d1, d1) | d14 => (d1, d6) | d15 => (d1, d11) | d16 => (d1, d16) | d17 => (d1, d21) | d18 => (d1, d26) | d19 => (d1, d31) | d20 => (d1, d36) | d21 => (d1, d41) | d22 => (d1, d46) | d23 => (d1, d51) | d24 => (d1, d56) | d25 => (d1, d61) | d26 => (d2, d2) | d27 => (d2, d7) | d28 => (d2, d12) | d29 => (d2, d17) | d30 => (d2, d22) | d31 => (d2, d27) | d32 => (d2, d32) | d33 => (d2, d37) | d34 => (d2, d42) | d35 => (d2, d47) | d36 => (d2, d52) | d37 => (d2, d57) | d38 => (d2, d62) | d39 => (d3, d3) | d40 => (d3, d8) | d41 => (d3, d13) | d42 => (d3, d18) | d43 => (d3, d23) | d44 => (d3, d28) | d45 => (d3, d33) | d46 => (d3, d38) | d47 => (d3, d43) | d48 => (d3, d48) | d49 => (d3, d53) | d50 => (d3, d58) | d51 => (d3, d63) | d52 => (d4, d4) | d53 => (d4, d9) | d54 => (d4, d14) | d55 => (d4, d19) | d56 => (d4, d24) | d57 => (d4, d29) | d58 => (d4, d34) | d59 => (d4, d39) | d60 => (d4, d44) | d61 => (d4, d49) | d62 => (d4, d54) | d63 => (d4, d59) end
 | d6 => match b with | d0 => (d0, d0) | d1 => (d0, d6) | d2 => (d0, d12) | d3 => (d0, d18) | d4 => (d0, d24) | d5 => (d0, d30) | d6 => (d0, d36) | d7 => (d0, d42) | d8 => (d0, d48) | d9 => (d0, d54) | d10 => (d0, d60) | d11 => (d1, d2) | d12 => (d1, d8) | d13 => (d1, d14) | d14 => (d1, d20) | d15 => (d1, d26) | d16 => (d1, d32) | d17 => (d1, d38) | d18 => (d1, d44) | d19 => (d1, d50) | d20 => (d1, d56) | d21 => (d1, d62) | d22 => (d2, d4) | d23 => (d2, d10) | d24 => (d2, d16) | d25 => (d2, d22) | d26 => (d2, d28) | d27 => (d2, d34) | d28 => (d2, d40) | d29 => (d2, d46) | d30 => (d2, d52) | d31 => (d2, d58) | d32 => (d3, d0) | d33 => (d3, d6) | d34 => (d3, d12) | d35 => (d3, d18) | d36 => (d3, d24) | d37 => (d3, d30) | d38 => (d3, d36) | d39 => (d3, d42) | d40 => (d3, d48) | d41 => (d3, d54) | d42 => (d3, d60) | d43 => (d4, d2) | d44 => (d4, d8) | d45 => (d4, d14) | d46 => (d4, d20) | d47 => (d4, d26) | d48 => (d4, d32) | d49 => (d4, d38) | d50 => (d4, d44) | d51 => (d4, d50) | d52 => (d4, d56) | d53 => (d4, d62) | d54 => (d5, d4) | d55 => (d5, d10) | d56 => (d5, d16) | d57 => (d5, d22) | d58 => (d5, d28) | d59 => (d5, d34) | d60 => (d5, d40) | d61 => (d5, d46) | d62 => (d5, d52) | d63 => (d5, d58) end
 | d7 => match b with | d0 => (d0, d0) | d1 => (d0, d7) | d2 => (d0, d14) | d3 => (d0, d21) | d4 => (d0, d28) | d5 => (d0, d35) | d6 => (d0, d42) | d7 => (d0, d49) | d8 => (d0, d56) | d9 => (d0, d63) | d10 => (d1, d6) | d11 => (d1, d13) | d12 => (d1, d20) | d13 => (d1, d27) | d14 => (d1, d34) | d15 => (d1, d41) | d16 => (d1, d48) | d17 => (d1, d55) | d18 => (d1, d62) | d19 => (d2, d5) | d20 => (d2, d12) | d21 => (d2, d19) | d22 => (d2, d26) | d23 => (d2, d33) | d24 => (d2, d40) | d25 => (d2, d47) | d26 => (d2, d54) | d27 => (d2, d61) | d28 => (d3, d4) | d29 => (d3, d11) | d30 => (d3, d18) | d31 => (d3, d25) | d32 => (d3, d32) | d33 => (d3, d39) | d34 => (d3, d46) | d35 => (d3, d53) | d36 => (d3, d60) | d37 => (d4, d3) | d38 => (d4, d10) | d39 => (d4, d17) | d40 => (d4, d24) | d41 => (d4, d31) | d42 => (d4, d38) | d43 => (d4, d45) | d44 => (d4, d52) | d45 => (d4, d59) | d46 => (d5, d2) | d47 => (d5, d9) | d48 => (d5, d16) | d49 => (d5, d23) | d50 => (d5, d30) | d51 => (d5, d37) | d52 => (d5, d44) | d53 => (d5, d51) | d54 => (d5, d58) | d55 => (d6, d1) | d56 => (d6, d8) | d57 => (d6, d15) | d58 => (d6, d22) | d59 => (d6, d29) | d60 => (d6, d36) | d61 => (d6, d43) | d62 => (d6, d50) | d63 => (d6, d57) end
 | d8 => match b with | d0 => (d0, d0) | d1 => (d0, d8) | d2 => (d0, d16) | d3 => (d0, d24) | d4 => (d0, d32) | d5 => (d0, d40) | d6 => (d0, d48) | d7 => (d0, d56) | d8 => (d1, d0) | d9 => (d1, d8) | d10 => (d1, d16) | d11 => (d1, d24) | d12 => (d1, d32) | d13 => (d1, d40) | d14 => (d1, d48) | d15 => (d1, d56) | d16 => (d2, d0) | d17 => (d2, d8) | d18 => (d2, d16) | d19 => (d2, d24) | d20 => (d2, d32) | d21 => (d2, d40) | d22 => (d2, d48) | d23 => (d2, d56) | d24 => (d3, d0) | d25 => (d3, d8) | d26 => (d3, d16) | d27 => (d3, d24) | d28 => (d3, d32) | d29 => (d3, d40) | d30 => (d3, d48) | d31 => (d3, d56) | d32 => (d4, d0) | d33 => (d4, d8) | d34 => (d4, d16) | d35 => (d4, d24) | d36 => (d4, d32) | d37 => (d4, d40) | d38 => (d4, d48) | d39 => (d4, d56) | d40 => (d5, d0) | d41 => (d5, d8) | d42 => (d5, d16) | d43 => (d5, d24) | d44 => (d5, d32) | d45 => (d5, d40) | d46 => (d5, d48) | d47 => (d5, d56) | d48 => (d6, d0) | d49 => (d6, d8) | d50 => (d6, d16) | d51 => (d6, d24) | d52 => (d6, d32) | d53 => (d6, d40) | d54 => (d6, d48) | d55 => (d6, d56) | d56 => (d7, d0) | d57 => (d7, d8) | d58 => (d7, d16) | d59 => (d7, d24) | d60 => (d7, d32) | d61 => (d7, d40) | d62 => (d7, d48) | d63 => (d7, d56) end
 | d9 => match b with | d0 => (d0, d0) | d1 => (d0, d9) | d2 => (d0, d18) | d3 => (d0, d27) | d4 => (d0, d36) | d5 => (d0, d45) | d6 => (d0, d54) | d7 => (d0, d63) | d8 => (d1, d8) | d9 => (d1, d17) | d10 => (d1, d26) | d11 => (d1, d35) | d12 => (d1, d44) | d13 => (d1, d53) | d14 => (d1, d62) | d15 => (d2, d7) | d16 => (d2, d16) | d17 => (d2, d25) | d18 => (d2, d34) | d19 => (d2, d43) | d20 => (d2, d52) | d21 => (d2, d61) | d22 => (d3, d6) | d23 => (d3, d15) | d24 => (d3, d24) | d25 => (d3, d33) | d26 => (d3, d42) | d27 => (d3, d51) | d28 => (d3, d60) | d29 => (d4, d5) | d30 => (d4, d14) | d31 => (d4, d23) | d32 => (d4, d32) | d33 => (d4, d41) | d34 => (d4, d50) | d35 => (d4, d59) | d36 => (d5, d4) | d37 => (d5, d13) | d38 => (d5, d22) | d39 => (d5, d31) | d40 => (d5, d40) | d41 => (d5, d49) | d42 => (d5, d58) | d43 => (d6, d3) | d44 => (d6, d12) | d45 => (d6, d21) | d46 => (d6, d30) | d47 => (d6, d39) | d48 => (d6, d48) | d49 => (d6, d57) | d50 => (d7, d2) | d51 => (d7, d11) | d52 => (d7, d20) | d53 => (d7, d29) | d54 => (d7, d38) | d55 => (d7, d47) | d56 => (d7, d56) | d57 => (d8, d1) | d58 => (d8, d10) | d59 => (d8, d19) | d60 => (d8, d28) | d61 => (d8, d37) | d62 => (d8, d46) | d63 => (d8, d55) end
 | d10 => match b with | d0 => (d0, d0) | d1 => (d0, d10) | d2 => (d0, d20) | d3 => (d0, d30) | d4 => (d0, d40) | d5 => (d0, d50) | d6 => (d0, d60) | d7 => (d1, d6) | d8 => (d1, d16) | d9 => (d1, d26) | d10 => (d1, d36) | d11 => (d1, d46) | d12 => (d1, d56) | d13 => (d2, d2) | d14 => (d2, d12) | d15 => (d2, d22) | d16 => (d2, d32) | d17 => (d2, d42) | d18 => (d2, d52) | d19 => (d2, d62) | d20 => (d3, d8) | d21 => (d3, d18) | d22 => (d3, d28) | d23 => (d3, d38) | d24 => (d3, d48) | d25 => (d3, d58) | d26 => (d4, d4) | d27 => (d4, d14) | d28 => (d4, d24) | d29 => (d4, d34) | d30 => (d4, d44) | d31 => (d4, d54) | d32 => (d5, d0) | d33 => (d5, d10) | d34 => (d5, d20) | d35 => (d5, d30) | d36 => (d5, d40) | d37 => (d5, d50) | d38 => (d5, d60) | d39 => (d6, d6) | d40 => (d6, d16) | d41 => (d6, d26) | d42 => (d6, d36) | d43 => (d6, d46) | d44 => (d6, d56) | d45 => (d7, d2) | d46 => (d7, d12) | d47 => (d7, d22) | d48 => (d7, d32) | d49 => (d7, d42) | d50 => (d7, d52) | d51 => (d7, d62) | d52 => (d8, d8) | d53 => (d8, d18) | d54 => (d8, d28) | d55 => (d8, d38) | d56 => (d8, d48) | d57 => (d8, d58) | d58 => (d9, d4) | d59 => (d9, d14) | d60 => (d9, d24) | d61 => (d9, d34) | d62 => (d9, d44) | d63 => (d9, d54) end
 | d11 => match b with | d0 => (d0, d0) | d1 => (d0, d11) | d2 => (d0, d22) | d3 => (d0, d33) | d4 => (d0, d44) | d5 => (d0, d55) | d6 => (d1, d2) | d7 => (d1, d13) | d8 => (d1, d24) | d9 => (d1, d35) | d10 => (d1, d46) | d11 => (d1, d57) | d12 => (d2, d4) | d13 => (d2, d15) | d14 => (d2, d26) | d15 => (d2, d37) | d16 => (d2, d48) | d17 => (d2, d59) | d18 => (d3, d6) | d19 => (d3, d17) | d20 => (d3, d28) | d21 => (d3, d39) | d22 => (d3, d50) | d23 => (d3, d61) | d24 => (d4, d8) | d25 => (d4, d19) | d26 => (d4, d30) | d27 => (d4, d41) | d28 => (d4, d52) | d29 => (d4, d63) | d30 => (d5, d10) | d31 => (d5, d21) | d32 => (d5, d32) | d33 => (d5, d43) | d34 => (d5, d54) | d35 => (d6, d1) | d36 => (d6, d12) | d37 => (d6, d23) | d38 => (d6, d34) | d39 => (d6, d45) | d40 => (d6, d56) | d41 => (d7, d3) | d42 => (d7, d14) | d43 => (d7, d25) | d44 => (d7, d36) | d45 => (d7, d47) | d46 => (d7, d58) | d47 => (d8, d5) | d48 => (d8, d16) | d49 => (d8, d27) | d50 => (d8, d38) | d51 => (d8, d49) | d52 => (d8, d60) | d53 => (d9, d7) | d54 => (d9, d18) | d55 => (d9, d29) | d56 => (d9, d40) | d57 => (d9, d51) | d58 => (d9, d62) | d59 => (d10, d9) | d60 => (d10, d20) | d61 => (d10, d31) | d62 => (d10, d42) | d63 => (d10, d53) end
 | d12 => match b with | d0 => (d0, d0) | d1 => (d0, d12) | d2 => (d0, d24) | d3 => (d0, d36) | d4 => (d0, d48) | d5 => (d0, d60) | d6 => (d1, d8) | d7 => (d1, d20) | d8 => (d1, d32) | d9 => (d1, d44) | d10 => (d1, d56) | d11 => (d2, d4) | d12 => (d2, d16) | d13 => (d2, d28) | d14 => (d2, d40) | d15 => (d2, d52) | d16 => (d3, d0) | d17 => (d3, d12) | d18 => (d3, d24) | d19 => (d3, d36) | d20 => (d3, d48) | d21 => (d3, d60) | d22 => (d4, d8) | d23 => (d4, d20) | d24 => (d4, d32) | d25 => (d4, d44) | d26 => (d4, d56) | d27 => (d5, d4) | d28 => (d5, d16) | d29 => (d5, d28) | d30 => (d5, d40) | d31 => (d5, d52) | d32 => (d6, d0) | d33 => (d6, d12) | d34 => (d6, d24) | d35 => (d6, d36) | d36 => (d6, d48) | d37 => (d6, d60) | d38 => (d7, d8) | d39 => (d7, d20) | d40 => (d7, d32) | d41 => (d7, d44) | d42 => (d7, d56) | d43 => (d8, d4) | d44 => (d8, d16) | d45 => (d8, d28) | d46 => (d8, d40) | d47 => (d8, d52) | d48 => (d9, d0) | d49 => (d9, d12) | d50 => (d9, d24) | d51 => (d9, d36) | d52 => (d9, d48) | d53 => (d9, d60) | d54 => (d10, d8) | d55 => (d10, d20) | d56 => (d10, d32) | d57 => (d10, d44) | d58 => (d10, d56) | d59 => (d11, d4) | d60 => (d11, d16) | d61 => (d11, d28) | d62 => (d11, d40) | d63 => (d11, d52) end
 | d13 => match b with | d0 => (d0, d0) | d1 => (d0, d13) | d2 => (d0, d26) | d3 => (d0, d39) | d4 => (d0, d52) | d5 => (d1, d1) | d6 => (d1, d14) | d7 => (d1, d27) | d8 => (d1, d40) | d9 => (d1, d53) | d10 => (d2, d2) | d11 => (d2, d15) | d12 => (d2, d28) | d13 => (d2, d41) | d14 => (d2, d54) | d15 => (d3, d3) | d16 => (d3, d16) | d17 => (d3, d29) | d18 => (d3, d42) | d19 => (d3, d55) | d20 => (d4, d4) | d21 => (d4, d17) | d22 => (d4, d30) | d23 => (d4, d43) | d24 => (d4, d56) | d25 => (d5, d5) | d26 => (d5, d18) | d27 => (d5, d31) | d28 => (d5, d44) | d29 => (d5, d57) | d30 => (d6, d6) | d31 => (d6, d19) | d32 => (d6, d32) | d33 => (d6, d45) | d34 => (d6, d58) | d35 => (d7, d7) | d36 => (d7, d20) | d37 => (d7, d33) | d38 => (d7, d46) | d39 => (d7, d59) | d40 => (d8, d8) | d41 => (d8, d21) | d42 => (d8, d34) | d43 => (d8, d47) | d44 => (d8, d60) | d45 => (d9, d9) | d46 => (d9, d22) | d47 => (d9, d35) | d48 => (d9, d48) | d49 => (d9, d61) | d50 => (d10, d10) | d51 => (d10, d23) | d52 => (d10, d36) | d53 => (d10, d49) | d54 => (d10, d62) | d55 => (d11, d11) | d56 => (d11, d24) | d57 => (d11, d37) | d58 => (d11, d50) | d59 => (d11, d63) | d60 => (d12, d12) | d61 => (d12, d25) | d62 => (d12, d38) | d63 => (d12, d51) end
 | d14 => match b with | d0 => (d0, d0) | d1 => (d0, d14) | d2 => (d0, d28) | d3 => (d0, d42) | d4 => (d0, d56) | d5 => (d1, d6) | d6 => (d1, d20) | d7 => (d1, d34) | d8 => (d1, d48) | d9 => (d1, d62) | d10 => (d2, d12) | d11 => (d2, d26) | d12 => (d2, d40) | d13 => (d2, d54) | d14 => (d3, d4) | d15 => (d3, d18) | d16 => (d3, d32) | d17 => (d3, d46) | d18 => (d3, d60) | d19 => (d4, d10) | d20 => (d4, d24) | d21 => (d4, d38) | d22 => (d4, d52) | d23 => (d5, d2) | d24 => (d5, d16) | d25 => (d5, d30) | d26 => (d5, d44) | d27 => (d5, d58) | d28 => (d6, d8) | d29 => (d6, d22) | d30 => (d6, d36) | d31 => (d6, d50) | d32 => (d7, d0) | d33 => (d7, d14) | d34 => (d7, d28) | d35 => (d7, d42) | d36 => (d7, d56) | d37 => (d8, d6) | d38 => (d8, d20) | d39 => (d8, d34) | d40 => (d8, d48) | d41 => (d8, d62) | d42 => (d9, d12) | d43 => (d9, d26) | d44 => (d9, d40) | d45 => (d9, d54) | d46 => (d10, d4) | d47 => (d10, d18) | d48 => (d10, d32) | d49 => (d10, d46) | d50 => (d10, d60) | d51 => (d11, d10) | d52 => (d11, d24) | d53 => (d11, d38) | d54 => (d11, d52) | d55 => (d12, d2) | d56 => (d12, d16) | d57 => (d12, d30) | d58 => (d12, d44) | d59 => (d12, d58) | d60 => (d13, d8) | d61 => (d13, d22) | d62 => (d13, d36) | d63 => (d13, d50) end
 | d15 => match b with | d0 => (d0, d0) | d1 => (d0, d15) | d2 => (d0, d30) | d3 => (d0, d45) | d4 => (d0, d60) | d5 => (d1, d11) | d6 => (d1, d26) | d7 => (d1, d41) | d8 => (d1, d56) | d9 => (d2, d7) | d10 => (d2, d22) | d11 => (d2, d37) | d12 => (d2, d52) | d13 => (d3, d3) | d14 => (d3, d18) | d15 => (d3, d33) | d16 => (d3, d48) | d17 => (d3, d63) | d18 => (d4, d14) | d19 => (d4, d29) | d20 => (d4, d44) | d21 => (d4, d59) | d22 => (d5, d10) | d23 => (d5, d25) | d24 => (d5, d40) | d25 => (d5, d55) | d26 => (d6, d6) | d27 => (d6, d21) | d28 => (d6, d36) | d29 => (d6, d51) | d30 => (d7, d2) | d31 => (d7, d17) | d32 => (d7, d32) | d33 => (d7, d47) | d34 => (d7, d62) | d35 => (d8, d13) | d36 => (d8, d28) | d37 => (d8, d43) | d38 => (d8, d58) | d39 => (d9, d9) | d40 => (d9, d24) | d41 => (d9, d39) | d42 => (d9, d54) | d43 => (d10, d5) | d44 => (d10, d20) | d45 => (d10, d35) | d46 => (d10, d50) | d47 => (d11, d1) | d48 => (d11, d16) | d49 => (d11, d31) | d50 => (d11, d46) | d51 => (d11, d61) | d52 => (d12, d12) | d53 => (d12, d27) | d54 => (d12, d42) | d55 => (d12, d57) | d56 => (d13, d8) | d57 => (d13, d23) | d58 => (d13, d38) | d59 => (d13, d53) | d60 => (d14, d4) | d61 => (d14, d19) | d62 => (d14, d34) | d63 => (d14, d49) end
 | d16 => match b with | d0 => (d0, d0) | d1 => (d0, d16) | d2 => (d0, d32) | d3 => (d0, d48) | d4 => (d1, d0) | d5 => (d1, d16) | d6 => (d1, d32) | d7 => (d1, d48) | d8 => (d2, d0) | d9 => (d2, d16) | d10 => (d2, d32) | d11 => (d2, d48) | d12 => (d3, d0) | d13 => (d3, d16) | d14 => (d3, d32) | d15 => (d3, d48) | d16 => (d4, d0) | d17 => (d4, d16) | d18 => (d4, d32) | d19 => (d4, d48) | d20 => (d5, d0) | d21 => (d5, d16) | d22 => (d5, d32) | d23 => (d5, d48) | d24 => (d6, d0) | d25 => (d6, d16) | d26 => (d6, d32) | d27 => (d6, d48) | d28 => (d7, d0) | d29 => (d7, d16) | d30 => (d7, d32) | d31 => (d7, d48) | d32 => (d8, d0) | d33 => (d8, d16) | d34 => (d8, d32) | d35 => (d8, d48) | d36 => (d9, d0) | d37 => (d9, d16) | d38 => (d9, d32) | d39 => (d9, d48) | d40 => (d10, d0) | d41 => (d10, d16) | d42 => (d10, d32) | d43 => (d10, d48) | d44 => (d11, d0) | d45 => (d11, d16) | d46 => (d11, d32) | d47 => (d11, d48) | d48 => (d12, d0) | d49 => (d12, d16) | d50 => (d12, d32) | d51 => (d12, d48) | d52 => (d13, d0) | d53 => (d13, d16) | d54 => (d13, d32) | d55 => (d13, d48) | d56 => (d14, d0) | d57 => (d14, d16) | d58 => (d14, d32) | d59 => (d14, d48) | d60 => (d15, d0) | d61 => (d15, d16) | d62 => (d15, d32) | d63 => (d15, d48) end
 | d17 => match b with | d0 => (d0, d0) | d1 => (d0, d17) | d2 => (d0, d34) | d3 => (d0, d51) | d4 => (d1, d4) | d5 => (d1, d21) | d6 => (d1, d38) | d7 => (d1, d55) | d8 => (d2, d8) | d9 => (d2, d25) | d10 => (d2, d42) | d11 => (d2, d59) | d12 => (d3, d12) | d13 => (d3, d29) | d14 => (d3, d46) | d15 => (d3, d63) | d16 => (d4, d16) | d17 => (d4, d33) | d18 => (d4, d50) | d19 => (d5, d3) | d20 => (d5, d20) | d21 => (d5, d37) | d22 => (d5, d54) | d23 => (d6, d7) | d24 => (d6, d24) | d25 => (d6, d41) | d26 => (d6, d58) | d27 => (d7, d11) | d28 => (d7, d28) | d29 => (d7, d45) | d30 => (d7, d62) | d31 => (d8, d15) | d32 => (d8, d32) | d33 => (d8, d49) | d34 => (d9, d2) | d35 => (d9, d19) | d36 => (d9, d36) | d37 => (d9, d53) | d38 => (d10, d6) | d39 => (d10, d23) | d40 => (d10, d40) | d41 => (d10, d57) | d42 => (d11, d10) | d43 => (d11, d27) | d44 => (d11, d44) | d45 => (d11, d61) | d46 => (d12, d14) | d47 => (d12, d31) | d48 => (d12, d48) | d49 => (d13, d1) | d50 => (d13, d18) | d51 => (d13, d35) | d52 => (d13, d52) | d53 => (d14, d5) | d54 => (d14, d22) | d55 => (d14, d39) | d56 => (d14, d56) | d57 => (d15, d9) | d58 => (d15, d26) | d59 => (d15, d43) | d60 => (d15, d60) | d61 => (d16, d13) | d62 => (d16, d30) | d63 => (d16, d47) end
 | d18 => match b with | d0 => (d0, d0) | d1 => (d0, d18) | d2 => (d0, d36) | d3 => (d0, d54) | d4 => (d1, d8) | d5 => (d1, d26) | d6 => (d1, d44) | d7 => (d1, d62) | d8 => (d2, d16) | d9 => (d2, d34) | d10 => (d2, d52) | d11 => (d3, d6) | d12 => (d3, d24) | d13 => (d3, d42) | d14 => (d3, d60) | d15 => (d4, d14) | d16 => (d4, d32) | d17 => (d4, d50) | d18 => (d5, d4) | d19 => (d5, d22) | d20 => (d5, d40) | d21 => (d5, d58) | d22 => (d6, d12) | d23 => (d6, d30) | d24 => (d6, d48) | d25 => (d7, d2) | d26 => (d7, d20) | d27 => (d7, d38) | d28 => (d7, d56) | d29 => (d8, d10) | d30 => (d8, d28) | d31 => (d8, d46) | d32 => (d9, d0) | d33 => (d9, d18) | d34 => (d9, d36) | d35 => (d9, d54) | d36 => (d10, d8) | d37 => (d10, d26) | d38 => (d10, d44) | d39 => (d10, d62) | d40 => (d11, d16) | d41 => (d11, d34) | d42 => (d11, d52) | d43 => (d12, d6) | d44 => (d12, d24) | d45 => (d12, d42) | d46 => (d12, d60) | d47 => (d13, d14) | d48 => (d13, d32) | d49 => (d13, d50) | d50 => (d14, d4) | d51 => (d14, d22) | d52 => (d14, d40) | d53 => (d14, d58) | d54 => (d15, d12) | d55 => (d15, d30) | d56 => (d15, d48) | d57 => (d16, d2) | d58 => (d16, d20) | d59 => (d16, d38) | d60 => (d16, d56) | d61 => (d17, d10) | d62 => (d17, d28) | d63 => (d17, d46) end
 | d19 => match b with | d0 => (d0, d0) | d1 => (d0, d19) | d2 => (d0, d38) | d3 => (d0, d57) | d4 => (d1, d12) | d5 => (d1, d31) | d6 => (d1, d50) | d7 => (d2, d5) | d8 => (d2, d24) | d9 => (d2, d43) | d10 => (d2, d62) | d11 => (d3, d17) | d12 => (d3, d36) | d13 => (d3, d55) | d14 => (d4, d10) | d15 => (d4, d29) | d16 => (d4, d48) | d17 => (d5, d3) | d18 => (d5, d22) | d19 => (d5, d41) | d20 => (d5, d60) | d21 => (d6, d15) | d22 => (d6, d34) | d23 => (d6, d53) | d24 => (d7, d8) | d25 => (d7, d27) | d26 => (d7, d46) | d27 => (d8, d1) | d28 => (d8, d20) | d29 => (d8, d39) | d30 => (d8, d58) | d31 => (d9, d13) | d32 => (d9, d32) | d33 => (d9, d51) | d34 => (d10, d6) | d35 => (d10, d25) | d36 => (d10, d44) | d37 => (d10, d63) | d38 => (d11, d18) | d39 => (d11, d37) | d40 => (d11, d56) | d41 => (d12, d11) | d42 => (d12, d30) | d43 => (d12, d49) | d44 => (d13, d4) | d45 => (d13, d23) | d46 => (d13, d42) | d47 => (d13, d61) | d48 => (d14, d16) | d49 => (d14, d35) | d50 => (d14, d54) | d51 => (d15, d9) | d52 => (d15, d28) | d53 => (d15, d47) | d54 => (d16, d2) | d55 => (d16, d21) | d56 => (d16, d40) | d57 => (d16, d59) | d58 => (d17, d14) | d59 => (d17, d33) | d60 => (d17, d52) | d61 => (d18, d7) | d62 => (d18, d26) | d63 => (d18, d45) end
 | d20 => match b with | d0 => (d0, d0) | d1 => (d0, d20) | d2 => (d0, d40) | d3 => (d0, d60) | d4 => (d1, d16) | d5 => (d1, d36) | d6 => (d1, d56) | d7 => (d2, d12) | d8 => (d2, d32) | d9 => (d2, d52) | d10 => (d3, d8) | d11 => (d3, d28) | d12 => (d3, d48) | d13 => (d4, d4) | d14 => (d4, d24) | d15 => (d4, d44) | d16 => (d5, d0) | d17 => (d5, d20) | d18 => (d5, d40) | d19 => (d5, d60) | d20 => (d6, d16) | d21 => (d6, d36) | d22 => (d6, d56) | d23 => (d7, d12) | d24 => (d7, d32) | d25 => (d7, d52) | d26 => (d8, d8) | d27 => (d8, d28) | d28 => (d8, d48) | d29 => (d9, d4) | d30 => (d9, d24) | d31 => (d9, d44) | d32 => (d10, d0) | d33 => (d10, d20) | d34 => (d10, d40) | d35 => (d10, d60) | d36 => (d11, d16) | d37 => (d11, d36) | d38 => (d11, d56) | d39 => (d12, d12) | d40 => (d12, d32) | d41 => (d12, d52) | d42 => (d13, d8) | d43 => (d13, d28) | d44 => (d13, d48) | d45 => (d14, d4) | d46 => (d14, d24) | d47 => (d14, d44) | d48 => (d15, d0) | d49 => (d15, d20) | d50 => (d15, d40) | d51 => (d15, d60) | d52 => (d16, d16) | d53 => (d16, d36) | d54 => (d16, d56) | d55 => (d17, d12) | d56 => (d17, d32) | d57 => (d17, d52) | d58 => (d18, d8) | d59 => (d18, d28) | d60 => (d18, d48) | d61 => (d19, d4) | d62 => (d19, d24) | d63 => (d19, d44) end
 | d21 => match b with | d0 => (d0, d0) | d1 => (d0, d21) | d2 => (d0, d42) | d3 => (d0, d63) | d4 => (d1, d20) | d5 => (d1, d41) | d6 => (d1, d62) | d7 => (d2, d19) | d8 => (d2, d40) | d9 => (d2, d61) | d10 => (d3, d18) | d11 => (d3, d39) | d12 => (d3, d60) | d13 => (d4, d17) | d14 => (d4, d38) | d15 => (d4, d59) | d16 => (d5, d16) | d17 => (d5, d37) | d18 => (d5, d58) | d19 => (d6, d15) | d20 => (d6, d36) | d21 => (d6, d57) | d22 => (d7, d14) | d23 => (d7, d35) | d24 => (d7, d56) | d25 => (d8, d13) | d26 => (d8, d34) | d27 => (d8, d55) | d28 => (d9, d12) | d29 => (d9, d33) | d30 => (d9, d54) | d31 => (d10, d11) | d32 => (d10, d32) | d33 => (d10, d53) | d34 => (d11, d10) | d35 => (d11, d31) | d36 => (d11, d52) | d37 => (d12, d9) | d38 => (d12, d30) | d39 => (d12, d51) | d40 => (d13, d8) | d41 => (d13, d29) | d42 => (d13, d50) | d43 => (d14, d7) | d44 => (d14, d28) | d45 => (d14, d49) | d46 => (d15, d6) | d47 => (d15, d27) | d48 => (d15, d48) | d49 => (d16, d5) | d50 => (d16, d26) | d51 => (d16, d47) | d52 => (d17, d4) | d53 => (d17, d25) | d54 => (d17, d46) | d55 => (d18, d3) | d56 => (d18, d24) | d57 => (d18, d45) | d58 => (d19, d2) | d59 => (d19, d23) | d60 => (d19, d44) | d61 => (d20, d1) | d62 => (d20, d22) | d63 => (d20, d43) end
 | d22 => match b with | d0 => (d0, d0) | d1 => (d0, d22) | d2 => (d0, d44) | d3 => (d1, d2) | d4 => (d1, d24) | d5 => (d1, d46) | d6 => (d2, d4) | d7 => (d2, d26) | d8 => (d2, d48) | d9 => (d3, d6) | d10 => (d3, d28) | d11 => (d3, d50) | d12 => (d4, d8) | d13 => (d4, d30) | d14 => (d4, d52) | d15 => (d5, d10) | d16 => (d5, d32) | d17 => (d5, d54) | d18 => (d6, d12) | d19 => (d6, d34) | d20 => (d6, d56) | d21 => (d7, d14) | d22 => (d7, d36) | d23 => (d7, d58) | d24 => (d8, d16) | d25 => (d8, d38) | d26 => (d8, d60) | d27 => (d9, d18) | d28 => (d9, d40) | d29 => (d9, d62) | d30 => (d10, d20) | d31 => (d10, d42) | d32 => (d11, d0) | d33 => (d11, d22) | d34 => (d11, d44) | d35 => (d12, d2) | d36 => (d12, d24) | d37 => (d12, d46) | d38 => (d13, d4) | d39 => (d13, d26) | d40 => (d13, d48) | d41 => (d14, d6) | d42 => (d14, d28) | d43 => (d14, d50) | d44 => (d15, d8) | d45 => (d15, d30) | d46 => (d15, d52) | d47 => (d16, d10) | d48 => (d16, d32) | d49 => (d16, d54) | d50 => (d17, d12) | d51 => (d17, d34) | d52 => (d17, d56) | d53 => (d18, d14) | d54 => (d18, d36) | d55 => (d18, d58) | d56 => (d19, d16) | d57 => (d19, d38) | d58 => (d19, d60) | d59 => (d20, d18) | d60 => (d20, d40) | d61 => (d20, d62) | d62 => (d21, d20) | d63 => (d21, d42) end
 | d23 => match b with | d0 => (d0, d0) | d1 => (d0, d23) | d2 => (d0, d46) | d3 => (d1, d5) | d4 => (d1, d28) | d5 => (d1, d51) | d6 => (d2, d10) | d7 => (d2, d33) | d8 => (d2, d56) | d9 => (d3, d15) | d10 => (d3, d38) | d11 => (d3, d61) | d12 => (d4, d20) | d13 => (d4, d43) | d14 => (d5, d2) | d15 => (d5, d25) | d16 => (d5, d48) | d17 => (d6, d7) | d18 => (d6, d30) | d19 => (d6, d53) | d20 => (d7, d12) | d21 => (d7, d35) | d22 => (d7, d58) | d23 => (d8, d17) | d24 => (d8, d40) | d25 => (d8, d63) | d26 => (d9, d22) | d27 => (d9, d45) | d28 => (d10, d4) | d29 => (d10, d27) | d30 => (d10, d50) | d31 => (d11, d9) | d32 => (d11, d32) | d33 => (d11, d55) | d34 => (d12, d14) | d35 => (d12, d37) | d36 => (d12, d60) | d37 => (d13, d19) | d38 => (d13, d42) | d39 => (d14, d1) | d40 => (d14, d24) | d41 => (d14, d47) | d42 => (d15, d6) | d43 => (d15, d29) | d44 => (d15, d52) | d45 => (d16, d11) | d46 => (d16, d34) | d47 => (d16, d57) | d48 => (d17, d16) | d49 => (d17, d39) | d50 => (d17, d62) | d51 => (d18, d21) | d52 => (d18, d44) | d53 => (d19, d3) | d54 => (d19, d26) | d55 => (d19, d49) | d56 => (d20, d8) | d57 => (d20, d31) | d58 => (d20, d54) | d59 => (d21, d13) | d60 => (d21, d36) | d61 => (d21, d59) | d62 => (d22, d18) | d63 => (d22, d41) end
 | d24 => match b with | d0 => (d0, d0) | d1 => (d0, d24) | d2 => (d0, d48) | d3 => (d1, d8) | d4 => (d1, d32) | d5 => (d1, d56) | d6 => (d2, d16) | d7 => (d2, d40) | d8 => (d3, d0) | d9 => (d3, d24) | d10 => (d3, d48) | d11 => (d4, d8) | d12 => (d4, d32) | d13 => (d4, d56) | d14 => (d5, d16) | d15 => (d5, d40) | d16 => (d6, d0) | d17 => (d6, d24) | d18 => (d6, d48) | d19 => (d7, d8) | d20 => (d7, d32) | d21 => (d7, d56) | d22 => (d8, d16) | d23 => (d8, d40) | d24 => (d9, d0) | d25 => (d9, d24) | d26 => (d9, d48) | d27 => (d10, d8) | d28 => (d10, d32) | d29 => (d10, d56) | d30 => (d11, d16) | d31 => (d11, d40) | d32 => (d12, d0) | d33 => (d12, d24) | d34 => (d12, d48) | d35 => (d13, d8) | d36 => (d13, d32) | d37 => (d13, d56) | d38 => (d14, d16) | d39 => (d14, d40) | d40 => (d15, d0) | d41 => (d15, d24) | d42 => (d15, d48) | d43 => (d16, d8) | d44 => (d16, d32) | d45 => (d16, d56) | d46 => (d17, d16) | d47 => (d17, d40) | d48 => (d18, d0) | d49 => (d18, d24) | d50 => (d18, d48) | d51 => (d19, d8) | d52 => (d19, d32) | d53 => (d19, d56) | d54 => (d20, d16) | d55 => (d20, d40) | d56 => (d21, d0) | d57 => (d21, d24) | d58 => (d21, d48) | d59 => (d22, d8) | d60 => (d22, d32) | d61 => (d22, d56) | d62 => (d23, d16) | d63 => (d23, d40) end
 | d25 => match b with | d0 => (d0, d0) | d1 => (d0, d25) | d2 => (d0, d50) | d3 => (d1, d11) | d4 => (d1, d36) | d5 => (d1, d61) | d6 => (d2, d22) | d7 => (d2, d47) | d8 => (d3, d8) | d9 => (d3, d33) | d10 => (d3, d58) | d11 => (d4, d19) | d12 => (d4, d44) | d13 => (d5, d5) | d14 => (d5, d30) | d15 => (d5, d55) | d16 => (d6, d16) | d17 => (d6, d41) | d18 => (d7, d2) | d19 => (d7, d27) | d20 => (d7, d52) | d21 => (d8, d13) | d22 => (d8, d38) | d23 => (d8, d63) | d24 => (d9, d24) | d25 => (d9, d49) | d26 => (d10, d10) | d27 => (d10, d35) | d28 => (d10, d60) | d29 => (d11, d21) | d30 => (d11, d46) | d31 => (d12, d7) | d32 => (d12, d32) | d33 => (d12, d57) | d34 => (d13, d18) | d35 => (d13, d43) | d36 => (d14, d4) | d37 => (d14, d29) | d38 => (d14, d54) | d39 => (d15, d15) | d40 => (d15, d40) | d41 => (d16, d1) | d42 => (d16, d26) | d43 => (d16, d51) | d44 => (d17, d12) | d45 => (d17, d37) | d46 => (d17, d62) | d47 => (d18, d23) | d48 => (d18, d48) | d49 => (d19, d9) | d50 => (d19, d34) | d51 => (d19, d59) | d52 => (d20, d20) | d53 => (d20, d45) | d54 => (d21, d6) | d55 => (d21, d31) | d56 => (d21, d56) | d57 => (d22, d17) | d58 => (d22, d42) | d59 => (d23, d3) | d60 => (d23, d28) | d61 => (d23, d53) | d62 => (d24, d14) | d63 => (d24, d39) end
 | d26 => match b with | d0 => (d0, d0) | d1 => (d0, d26) | d2 => (d0, d52) | d3 => (d1, d14) | d4 => (d1, d40) | d5 => (d2, d2) | d6 => (d2, d28) | d7 => (d2, d54) | d8 => (d3, d16) | d9 => (d3, d42) | d10 => (d4, d4) | d11 => (d4, d30) | d12 => (d4, d56) | d13 => (d5, d18) | d14 => (d5, d44) | d15 => (d6, d6) | d16 => (d6, d32) | d17 => (d6, d58) | d18 => (d7, d20) | d19 => (d7, d46) | d20 => (d8, d8) | d21 => (d8, d34) | d22 => (d8, d60) | d23 => (d9, d22) | d24 => (d9, d48) | d25 => (d10, d10) | d26 => (d10, d36) | d27 => (d10, d62) | d28 => (d11, d24) | d29 => (d11, d50) | d30 => (d12, d12) | d31 => (d12, d38) | d32 => (d13, d0) | d33 => (d13, d26) | d34 => (d13, d52) | d35 => (d14, d14) | d36 => (d14, d40) | d37 => (d15, d2) | d38 => (d15, d28) | d39 => (d15, d54) | d40 => (d16, d16) | d41 => (d16, d42) | d42 => (d17, d4) | d43 => (d17, d30) | d44 => (d17, d56) | d45 => (d18, d18) | d46 => (d18, d44) | d47 => (d19, d6) | d48 => (d19, d32) | d49 => (d19, d58) | d50 => (d20, d20) | d51 => (d20, d46) | d52 => (d21, d8) | d53 => (d21, d34) | d54 => (d21, d60) | d55 => (d22, d22) | d56 => (d22, d48) | d57 => (d23, d10) | d58 => (d23, d36) | d59 => (d23, d62) | d60 => (d24, d24) | d61 => (d24, d50) | d62 => (d25, d12) | d63 => (d25, d38) end
 | d27 => match b with | d0 => (d0, d0) | d1 => (d0, d27) | d2 => (d0, d54) | d3 => (d1, d17) | d4 => (d1, d44) | d5 => (d2, d7) | d6 => (d2, d34) | d7 => (d2, d61) | d8 => (d3, d24) | d9 => (d3, d51) | d10 => (d4, d14) | d11 => (d4, d41) | d12 => (d5, d4) | d13 => (d5, d31) | d14 => (d5, d58) | d15 => (d6, d21) | d16 => (d6, d48) | d17 => (d7, d11) | d18 => (d7, d38) | d19 => (d8, d1) | d20 => (d8, d28) | d21 => (d8, d55) | d22 => (d9, d18) | d23 => (d9, d45) | d24 => (d10, d8) | d25 => (d10, d35) | d26 => (d10, d62) | d27 => (d11, d25) | d28 => (d11, d52) | d29 => (d12, d15) | d30 => (d12, d42) | d31 => (d13, d5) | d32 => (d13, d32) | d33 => (d13, d59) | d34 => (d14, d22) | d35 => (d14, d49) | d36 => (d15, d12) | d37 => (d15, d39) | d38 => (d16, d2) | d39 => (d16, d29) | d40 => (d16, d56) | d41 => (d17, d19) | d42 => (d17, d46) | d43 => (d18, d9) | d44 => (d18, d36) | d45 => (d18, d63) | d46 => (d19, d26) | d47 => (d19, d53) | d48 => (d20, d16) | d49 => (d20, d43) | d50 => (d21, d6) | d51 => (d21, d33) | d52 => (d21, d60) | d53 => (d22, d23) | d54 => (d22, d50) | d55 => (d23, d13) | d56 => (d23, d40) | d57 => (d24, d3) | d58 => (d24, d30) | d59 => (d24, d57) | d60 => (d25, d20) | d61 => (d25, d47) | d62 => (d26, d10) | d63 => (d26, d37) end
 | d28 => match b with | d0 => (d0, d0) | d1 => (d0, d28) | d2 => (d0, d56) | d3 => (d1, d20) | d4 => (d1, d48) | d5 => (d2, d12) | d6 => (d2, d40) | d7 => (d3, d4) | d8 => (d3, d32) | d9 => (d3, d60) | d10 => (d4, d24) | d11 => (d4, d52) | d12 => (d5, d16) | d13 => (d5, d44) | d14 => (d6, d8) | d15 => (d6, d36) | d16 => (d7, d0) | d17 => (d7, d28) | d18 => (d7, d56) | d19 => (d8, d20) | d20 => (d8, d48) | d21 => (d9, d12) | d22 => (d9, d40) | d23 => (d10, d4) | d24 => (d10, d32) | d25 => (d10, d60) | d26 => (d11, d24) | d27 => (d11, d52) | d28 => (d12, d16) | d29 => (d12, d44) | d30 => (d13, d8) | d31 => (d13, d36) | d32 => (d14, d0) | d33 => (d14, d28) | d34 => (d14, d56) | d35 => (d15, d20) | d36 => (d15, d48) | d37 => (d16, d12) | d38 => (d16, d40) | d39 => (d17, d4) | d40 => (d17, d32) | d41 => (d17, d60) | d42 => (d18, d24) | d43 => (d18, d52) | d44 => (d19, d16) | d45 => (d19, d44) | d46 => (d20, d8) | d47 => (d20, d36) | d48 => (d21, d0) | d49 => (d21, d28) | d50 => (d21, d56) | d51 => (d22, d20) | d52 => (d22, d48) | d53 => (d23, d12) | d54 => (d23, d40) | d55 => (d24, d4) | d56 => (d24, d32) | d57 => (d24, d60) | d58 => (d25, d24) | d59 => (d25, d52) | d60 => (d26, d16) | d61 => (d26, d44) | d62 => (d27, d8) | d63 => (d27, d36) end
 | d29 => match b with | d0 => (d0, d0) | d1 => (d0, d29) | d2 => (d0, d58) | d3 => (d1, d23) | d4 => (d1, d52) | d5 => (d2, d17) | d6 => (d2, d46) | d7 => (d3, d11) | d8 => (d3, d40) | d9 => (d4, d5) | d10 => (d4, d34) | d11 => (d4, d63) | d12 => (d5, d28) | d13 => (d5, d57) | d14 => (d6, d22) | d15 => (d6, d51) | d16 => (d7, d16) | d17 => (d7, d45) | d18 => (d8, d10) | d19 => (d8, d39) | d20 => (d9, d4) | d21 => (d9, d33) | d22 => (d9, d62) | d23 => (d10, d27) | d24 => (d10, d56) | d25 => (d11, d21) | d26 => (d11, d50) | d27 => (d12, d15) | d28 => (d12, d44) | d29 => (d13, d9) | d30 => (d13, d38) | d31 => (d14, d3) | d32 => (d14, d32) | d33 => (d14, d61) | d34 => (d15, d26) | d35 => (d15, d55) | d36 => (d16, d20) | d37 => (d16, d49) | d38 => (d17, d14) | d39 => (d17, d43) | d40 => (d18, d8) | d41 => (d18, d37) | d42 => (d19, d2) | d43 => (d19, d31) | d44 => (d19, d60) | d45 => (d20, d25) | d46 => (d20, d54) | d47 => (d21, d19) | d48 => (d21, d48) | d49 => (d22, d13) | d50 => (d22, d42) | d51 => (d23, d7) | d52 => (d23, d36) | d53 => (d24, d1) | d54 => (d24, d30) | d55 => (d24, d59) | d56 => (d25, d24) | d57 => (d25, d53) | d58 => (d26, d18) | d59 => (d26, d47) | d60 => (d27, d12) | d61 => (d27, d41) | d62 => (d28, d6) | d63 => (d28, d35) end
 | d30 => match b with | d0 => (d0, d0) | d1 => (d0, d30) | d2 => (d0, d60) | d3 => (d1, d26) | d4 => (d1, d56) | d5 => (d2, d22) | d6 => (d2, d52) | d7 => (d3, d18) | d8 => (d3, d48) | d9 => (d4, d14) | d10 => (d4, d44) | d11 => (d5, d10) | d12 => (d5, d40) | d13 => (d6, d6) | d14 => (d6, d36) | d15 => (d7, d2) | d16 => (d7, d32) | d17 => (d7, d62) | d18 => (d8, d28) | d19 => (d8, d58) | d20 => (d9, d24) | d21 => (d9, d54) | d22 => (d10, d20) | d23 => (d10, d50) | d24 => (d11, d16) | d25 => (d11, d46) | d26 => (d12, d12) | d27 => (d12, d42) | d28 => (d13, d8) | d29 => (d13, d38) | d30 => (d14, d4) | d31 => (d14, d34) | d32 => (d15, d0) | d33 => (d15, d30) | d34 => (d15, d60) | d35 => (d16, d26) | d36 => (d16, d56) | d37 => (d17, d22) | d38 => (d17, d52) | d39 => (d18, d18) | d40 => (d18, d48) | d41 => (d19, d14) | d42 => (d19, d44) | d43 => (d20, d10) | d44 => (d20, d40) | d45 => (d21, d6) | d46 => (d21, d36) | d47 => (d22, d2) | d48 => (d22, d32) | d49 => (d22, d62) | d50 => (d23, d28) | d51 => (d23, d58) | d52 => (d24, d24) | d53 => (d24, d54) | d54 => (d25, d20) | d55 => (d25, d50) | d56 => (d26, d16) | d57 => (d26, d46) | d58 => (d27, d12) | d59 => (d27, d42) | d60 => (d28, d8) | d61 => (d28, d38) | d62 => (d29, d4) | d63 => (d29, d34) end
 | d31 => match b with | d0 => (d0, d0) | d1 => (d0, d31) | d2 => (d0, d62) | d3 => (d1, d29) | d4 => (d1, d60) | d5 => (d2, d27) | d6 => (d2, d58) | d7 => (d3, d25) | d8 => (d3, d56) | d9 => (d4, d23) | d10 => (d4, d54) | d11 => (d5, d21) | d12 => (d5, d52) | d13 => (d6, d19) | d14 => (d6, d50) | d15 => (d7, d17) | d16 => (d7, d48) | d17 => (d8, d15) | d18 => (d8, d46) | d19 => (d9, d13) | d20 => (d9, d44) | d21 => (d10, d11) | d22 => (d10, d42) | d23 => (d11, d9) | d24 => (d11, d40) | d25 => (d12, d7) | d26 => (d12, d38) | d27 => (d13, d5) | d28 => (d13, d36) | d29 => (d14, d3) | d30 => (d14, d34) | d31 => (d15, d1) | d32 => (d15, d32) | d33 => (d15, d63) | d34 => (d16, d30) | d35 => (d16, d61) | d36 => (d17, d28) | d37 => (d17, d59) | d38 => (d18, d26) | d39 => (d18, d57) | d40 => (d19, d24) | d41 => (d19, d55) | d42 => (d20, d22) | d43 => (d20, d53) | d44 => (d21, d20) | d45 => (d21, d51) | d46 => (d22, d18) | d47 => (d22, d49) | d48 => (d23, d16) | d49 => (d23, d47) | d50 => (d24, d14) | d51 => (d24, d45) | d52 => (d25, d12) | d53 => (d25, d43) | d54 => (d26, d10) | d55 => (d26, d41) | d56 => (d27, d8) | d57 => (d27, d39) | d58 => (d28, d6) | d59 => (d28, d37) | d60 => (d29, d4) | d61 => (d29, d35) | d62 => (d30, d2) | d63 => (d30, d33) end
 | d32 => match b with | d0 => (d0, d0) | d1 => (d0, d32) | d2 => (d1, d0) | d3 => (d1, d32) | d4 => (d2, d0) | d5 => (d2, d32) | d6 => (d3, d0) | d7 => (d3, d32) | d8 => (d4, d0) | d9 => (d4, d32) | d10 => (d5, d0) | d11 => (d5, d32) | d12 => (d6, d0) | d13 => (d6, d32) | d14 => (d7, d0) | d15 => (d7, d32) | d16 => (d8, d0) | d17 => (d8, d32) | d18 => (d9, d0) | d19 => (d9, d32) | d20 => (d10, d0) | d21 => (d10, d32) | d22 => (d11, d0) | d23 => (d11, d32) | d24 => (d12, d0) | d25 => (d12, d32) | d26 => (d13, d0) | d27 => (d13, d32) | d28 => (d14, d0) | d29 => (d14, d32) | d30 => (d15, d0) | d31 => (d15, d32) | d32 => (d16, d0) | d33 => (d16, d32) | d34 => (d17, d0) | d35 => (d17, d32) | d36 => (d18, d0) | d37 => (d18, d32) | d38 => (d19, d0) | d39 => (d19, d32) | d40 => (d20, d0) | d41 => (d20, d32) | d42 => (d21, d0) | d43 => (d21, d32) | d44 => (d22, d0) | d45 => (d22, d32) | d46 => (d23, d0) | d47 => (d23, d32) | d48 => (d24, d0) | d49 => (d24, d32) | d50 => (d25, d0) | d51 => (d25, d32) | d52 => (d26, d0) | d53 => (d26, d32) | d54 => (d27, d0) | d55 => (d27, d32) | d56 => (d28, d0) | d57 => (d28, d32) | d58 => (d29, d0) | d59 => (d29, d32) | d60 => (d30, d0) | d61 => (d30, d32) | d62 => (d31, d0) | d63 => (d31, d32) end
 | d33 => match b with | d0 => (d0, d0) | d1 => (d0, d33) | d2 => (d1, d2) | d3 => (d1, d35) | d4 => (d2, d4) | d5 => (d2, d37) | d6 => (d3, d6) | d7 => (d3, d39) | d8 => (d4, d8) | d9 => (d4, d41) | d10 => (d5, d10) | d11 => (d5, d43) | d12 => (d6, d12) | d13 => (d6, d45) | d14 => (d7, d14) | d15 => (d7, d47) | d16 => (d8, d16) | d17 => (d8, d49) | d18 => (d9, d18) | d19 => (d9, d51) | d20 => (d10, d20) | d21 => (d10, d53) | d22 => (d11, d22) | d23 => (d11, d55) | d24 => (d12, d24) | d25 => (d12, d57) | d26 => (d13, d26) | d27 => (d13, d59) | d28 => (d14, d28) | d29 => (d14, d61) | d30 => (d15, d30) | d31 => (d15, d63) | d32 => (d16, d32) | d33 => (d17, d1) | d34 => (d17, d34) | d35 => (d18, d3) | d36 => (d18, d36) | d37 => (d19, d5) | d38 => (d19, d38) | d39 => (d20, d7) | d40 => (d20, d40) | d41 => (d21, d9) | d42 => (d21, d42) | d43 => (d22, d11) | d44 => (d22, d44) | d45 => (d23, d13) | d46 => (d23, d46) | d47 => (d24, d15) | d48 => (d24, d48) | d49 => (d25, d17) | d50 => (d25, d50) | d51 => (d26, d19) | d52 => (d26, d52) | d53 => (d27, d21) | d54 => (d27, d54) | d55 => (d28, d23) | d56 => (d28, d56) | d57 => (d29, d25) | d58 => (d29, d58) | d59 => (d30, d27) | d60 => (d30, d60) | d61 => (d31, d29) | d62 => (d31, d62) | d63 => (d32, d31) end
 | d34 => match b with | d0 => (d0, d0) | d1 => (d0, d34) | d2 => (d1, d4) | d3 => (d1, d38) | d4 => (d2, d8) | d5 => (d2, d42) | d6 => (d3, d12) | d7 => (d3, d46) | d8 => (d4, d16) | d9 => (d4, d50) | d10 => (d5, d20) | d11 => (d5, d54) | d12 => (d6, d24) | d13 => (d6, d58) | d14 => (d7, d28) | d15 => (d7, d62) | d16 => (d8, d32) | d17 => (d9, d2) | d18 => (d9, d36) | d19 => (d10, d6) | d20 => (d10, d40) | d21 => (d11, d10) | d22 => (d11, d44) | d23 => (d12, d14) | d24 => (d12, d48) | d25 => (d13, d18) | d26 => (d13, d52) | d27 => (d14, d22) | d28 => (d14, d56) | d29 => (d15, d26) | d30 => (d15, d60) | d31 => (d16, d30) | d32 => (d17, d0) | d33 => (d17, d34) | d34 => (d18, d4) | d35 => (d18, d38) | d36 => (d19, d8) | d37 => (d19, d42) | d38 => (d20, d12) | d39 => (d20, d46) | d40 => (d21, d16) | d41 => (d21, d50) | d42 => (d22, d20) | d43 => (d22, d54) | d44 => (d23, d24) | d45 => (d23, d58) | d46 => (d24, d28) | d47 => (d24, d62) | d48 => (d25, d32) | d49 => (d26, d2) | d50 => (d26, d36) | d51 => (d27, d6) | d52 => (d27, d40) | d53 => (d28, d10) | d54 => (d28, d44) | d55 => (d29, d14) | d56 => (d29, d48) | d57 => (d30, d18) | d58 => (d30, d52) | d59 => (d31, d22) | d60 => (d31, d56) | d61 => (d32, d26) | d62 => (d32, d60) | d63 => (d33, d30) end
 | d35 => match b with | d0 => (d0, d0) | d1 => (d0, d35) | d2 => (d1, d6) | d3 => (d1, d41) | d4 => (d2, d12) | d5 => (d2, d47) | d6 => (d3, d18) | d7 => (d3, d53) | d8 => (d4, d24) | d9 => (d4, d59) | d10 => (d5, d30) | d11 => (d6, d1) | d12 => (d6, d36) | d13 => (d7, d7) | d14 => (d7, d42) | d15 => (d8, d13) | d16 => (d8, d48) | d17 => (d9, d19) | d18 => (d9, d54) | d19 => (d10, d25) | d20 => (d10, d60) | d21 => (d11, d31) | d22 => (d12, d2) | d23 => (d12, d37) | d24 => (d13, d8) | d25 => (d13, d43) | d26 => (d14, d14) | d27 => (d14, d49) | d28 => (d15, d20) | d29 => (d15, d55) | d30 => (d16, d26) | d31 => (d16, d61) | d32 => (d17, d32) | d33 => (d18, d3) | d34 => (d18, d38) | d35 => (d19, d9) | d36 => (d19, d44) | d37 => (d20, d15) | d38 => (d20, d50) | d39 => (d21, d21) | d40 => (d21, d56) | d41 => (d22, d27) | d42 => (d22, d62) | d43 => (d23, d33) | d44 => (d24, d4) | d45 => (d24, d39) | d46 => (d25, d10) | d47 => (d25, d45) | d48 => (d26, d16) | d49 => (d26, d51) | d50 => (d27, d22) | d51 => (d27, d57) | d52 => (d28, d28) | d53 => (d28, d63) | d54 => (d29, d34) | d55 => (d30, d5) | d56 => (d30, d40) | d57 => (d31, d11) | d58 => (d31, d46) | d59 => (d32, d17) | d60 => (d32, d52) | d61 => (d33, d23) | d62 => (d33, d58) | d63 => (d34, d29) end
 | d36 => match b with | d0 => (d0, d0) | d1 => (d0, d36) | d2 => (d1, d8) | d3 => (d1, d44) | d4 => (d2, d16) | d5 => (d2, d52) | d6 => (d3, d24) | d7 => (d3, d60) | d8 => (d4, d32) | d9 => (d5, d4) | d10 => (d5, d40) | d11 => (d6, d12) | d12 => (d6, d48) | d13 => (d7, d20) | d14 => (d7, d56) | d15 => (d8, d28) | d16 => (d9, d0) | d17 => (d9, d36) | d18 => (d10, d8) | d19 => (d10, d44) | d20 => (d11, d16) | d21 => (d11, d52) | d22 => (d12, d24) | d23 => (d12, d60) | d24 => (d13, d32) | d25 => (d14, d4) | d26 => (d14, d40) | d27 => (d15, d12) | d28 => (d15, d48) | d29 => (d16, d20) | d30 => (d16, d56) | d31 => (d17, d28) | d32 => (d18, d0) | d33 => (d18, d36) | d34 => (d19, d8) | d35 => (d19, d44) | d36 => (d20, d16) | d37 => (d20, d52) | d38 => (d21, d24) | d39 => (d21, d60) | d40 => (d22, d32) | d41 => (d23, d4) | d42 => (d23, d40) | d43 => (d24, d12) | d44 => (d24, d48) | d45 => (d25, d20) | d46 => (d25, d56) | d47 => (d26, d28) | d48 => (d27, d0) | d49 => (d27, d36) | d50 => (d28, d8) | d51 => (d28, d44) | d52 => (d29, d16) | d53 => (d29, d52) | d54 => (d30, d24) | d55 => (d30, d60) | d56 => (d31, d32) | d57 => (d32, d4) | d58 => (d32, d40) | d59 => (d33, d12) | d60 => (d33, d48) | d61 => (d34, d20) | d62 => (d34, d56) | d63 => (d35, d28) end
 | d37 => match b with | d0 => (d0, d0) | d1 => (d0, d37) | d2 => (d1, d10) | d3 => (d1, d47) | d4 => (d2, d20) | d5 => (d2, d57) | d6 => (d3, d30) | d7 => (d4, d3) | d8 => (d4, d40) | d9 => (d5, d13) | d10 => (d5, d50) | d11 => (d6, d23) | d12 => (d6, d60) | d13 => (d7, d33) | d14 => (d8, d6) | d15 => (d8, d43) | d16 => (d9, d16) | d17 => (d9, d53) | d18 => (d10, d26) | d19 => (d10, d63) | d20 => (d11, d36) | d21 => (d12, d9) | d22 => (d12, d46) | d23 => (d13, d19) | d24 => (d13, d56) | d25 => (d14, d29) | d26 => (d15, d2) | d27 => (d15, d39) | d28 => (d16, d12) | d29 => (d16, d49) | d30 => (d17, d22) | d31 => (d17, d59) | d32 => (d18, d32) | d33 => (d19, d5) | d34 => (d19, d42) | d35 => (d20, d15) | d36 => (d20, d52) | d37 => (d21, d25) | d38 => (d21, d62) | d39 => (d22, d35) | d40 => (d23, d8) | d41 => (d23, d45) | d42 => (d24, d18) | d43 => (d24, d55) | d44 => (d25, d28) | d45 => (d26, d1) | d46 => (d26, d38) | d47 => (d27, d11) | d48 => (d27, d48) | d49 => (d28, d21) | d50 => (d28, d58) | d51 => (d29, d31) | d52 => (d30, d4) | d53 => (d30, d41) | d54 => (d31, d14) | d55 => (d31, d51) | d56 => (d32, d24) | d57 => (d32, d61) | d58 => (d33, d34) | d59 => (d34, d7) | d60 => (d34, d44) | d61 => (d35, d17) | d62 => (d35, d54) | d63 => (d36, d27) end
 | d38 => match b with | d0 => (d0, d0) | d1 => (d0, d38) | d2 => (d1, d12) | d3 => (d1, d50) | d4 => (d2, d24) | d5 => (d2, d62) | d6 => (d3, d36) | d7 => (d4, d10) | d8 => (d4, d48) | d9 => (d5, d22) | d10 => (d5, d60) | d11 => (d6, d34) | d12 => (d7, d8) | d13 => (d7, d46) | d14 => (d8, d20) | d15 => (d8, d58) | d16 => (d9, d32) | d17 => (d10, d6) | d18 => (d10, d44) | d19 => (d11, d18) | d20 => (d11, d56) | d21 => (d12, d30) | d22 => (d13, d4) | d23 => (d13, d42) | d24 => (d14, d16) | d25 => (d14, d54) | d26 => (d15, d28) | d27 => (d16, d2) | d28 => (d16, d40) | d29 => (d17, d14) | d30 => (d17, d52) | d31 => (d18, d26) | d32 => (d19, d0) | d33 => (d19, d38) | d34 => (d20, d12) | d35 => (d20, d50) | d36 => (d21, d24) | d37 => (d21, d62) | d38 => (d22, d36) | d39 => (d23, d10) | d40 => (d23, d48) | d41 => (d24, d22) | d42 => (d24, d60) | d43 => (d25, d34) | d44 => (d26, d8) | d45 => (d26, d46) | d46 => (d27, d20) | d47 => (d27, d58) | d48 => (d28, d32) | d49 => (d29, d6) | d50 => (d29, d44) | d51 => (d30, d18) | d52 => (d30, d56) | d53 => (d31, d30) | d54 => (d32, d4) | d55 => (d32, d42) | d56 => (d33, d16) | d57 => (d33, d54) | d58 => (d34, d28) | d59 => (d35, d2) | d60 => (d35, d40) | d61 => (d36, d14) | d62 => (d36, d52) | d63 => (d37, d26) end
 | d39 => match b with | d0 => (d0, d0) | d1 => (d0, d39) | d2 => (d1, d14) | d3 => (d1, d53) | d4 => (d2, d28) | d5 => (d3, d3) | d6 => (d3, d42) | d7 => (d4, d17) | d8 => (d4, d56) | d9 => (d5, d31) | d10 => (d6, d6) | d11 => (d6, d45) | d12 => (d7, d20) | d13 => (d7, d59) | d14 => (d8, d34) | d15 => (d9, d9) | d16 => (d9, d48) | d17 => (d10, d23) | d18 => (d10, d62) | d19 => (d11, d37) | d20 => (d12, d12) | d21 => (d12, d51) | d22 => (d13, d26) | d23 => (d14, d1) | d24 => (d14, d40) | d25 => (d15, d15) | d26 => (d15, d54) | d27 => (d16, d29) | d28 => (d17, d4) | d29 => (d17, d43) | d30 => (d18, d18) | d31 => (d18, d57) | d32 => (d19, d32) | d33 => (d20, d7) | d34 => (d20, d46) | d35 => (d21, d21) | d36 => (d21, d60) | d37 => (d22, d35) | d38 => (d23, d10) | d39 => (d23, d49) | d40 => (d24, d24) | d41 => (d24, d63) | d42 => (d25, d38) | d43 => (d26, d13) | d44 => (d26, d52) | d45 => (d27, d27) | d46 => (d28, d2) | d47 => (d28, d41) | d48 => (d29, d16) | d49 => (d29, d55) | d50 => (d30, d30) | d51 => (d31, d5) | d52 => (d31, d44) | d53 => (d32, d19) | d54 => (d32, d58) | d55 => (d33, d33) | d56 => (d34, d8) | d57 => (d34, d47) | d58 => (d35, d22) | d59 => (d35, d61) | d60 => (d36, d36) | d61 => (d37, d11) | d62 => (d37, d50) | d63 => (d38, d25) end
 | d40 => match b with | d0 => (d0, d0) | d1 => (d0, d40) | d2 => (d1, d16) | d3 => (d1, d56) | d4 => (d2, d32) | d5 => (d3, d8) | d6 => (d3, d48) | d7 => (d4, d24) | d8 => (d5, d0) | d9 => (d5, d40) | d10 => (d6, d16) | d11 => (d6, d56) | d12 => (d7, d32) | d13 => (d8, d8) | d14 => (d8, d48) | d15 => (d9, d24) | d16 => (d10, d0) | d17 => (d10, d40) | d18 => (d11, d16) | d19 => (d11, d56) | d20 => (d12, d32) | d21 => (d13, d8) | d22 => (d13, d48) | d23 => (d14, d24) | d24 => (d15, d0) | d25 => (d15, d40) | d26 => (d16, d16) | d27 => (d16, d56) | d28 => (d17, d32) | d29 => (d18, d8) | d30 => (d18, d48) | d31 => (d19, d24) | d32 => (d20, d0) | d33 => (d20, d40) | d34 => (d21, d16) | d35 => (d21, d56) | d36 => (d22, d32) | d37 => (d23, d8) | d38 => (d23, d48) | d39 => (d24, d24) | d40 => (d25, d0) | d41 => (d25, d40) | d42 => (d26, d16) | d43 => (d26, d56) | d44 => (d27, d32) | d45 => (d28, d8) | d46 => (d28, d48) | d47 => (d29, d24) | d48 => (d30, d0) | d49 => (d30, d40) | d50 => (d31, d16) | d51 => (d31, d56) | d52 => (d32, d32) | d53 => (d33, d8) | d54 => (d33, d48) | d55 => (d34, d24) | d56 => (d35, d0) | d57 => (d35, d40) | d58 => (d36, d16) | d59 => (d36, d56) | d60 => (d37, d32) | d61 => (d38, d8) | d62 => (d38, d48) | d63 => (d39, d24) end
 | d41 => match b with | d0 => (d0, d0) | d1 => (d0, d41) | d2 => (d1, d18) | d3 => (d1, d59) | d4 => (d2, d36) | d5 => (d3, d13) | d6 => (d3, d54) | d7 => (d4, d31) | d8 => (d5, d8) | d9 => (d5, d49) | d10 => (d6, d26) | d11 => (d7, d3) | d12 => (d7, d44) | d13 => (d8, d21) | d14 => (d8, d62) | d15 => (d9, d39) | d16 => (d10, d16) | d17 => (d10, d57) | d18 => (d11, d34) | d19 => (d12, d11) | d20 => (d12, d52) | d21 => (d13, d29) | d22 => (d14, d6) | d23 => (d14, d47) | d24 => (d15, d24) | d25 => (d16, d1) | d26 => (d16, d42) | d27 => (d17, d19) | d28 => (d17, d60) | d29 => (d18, d37) | d30 => (d19, d14) | d31 => (d19, d55) | d32 => (d20, d32) | d33 => (d21, d9) | d34 => (d21, d50) | d35 => (d22, d27) | d36 => (d23, d4) | d37 => (d23, d45) | d38 => (d24, d22) | d39 => (d24, d63) | d40 => (d25, d40) | d41 => (d26, d17) | d42 => (d26, d58) | d43 => (d27, d35) | d44 => (d28, d12) | d45 => (d28, d53) | d46 => (d29, d30) | d47 => (d30, d7) | d48 => (d30, d48) | d49 => (d31, d25) | d50 => (d32, d2) | d51 => (d32, d43) | d52 => (d33, d20) | d53 => (d33, d61) | d54 => (d34, d38) | d55 => (d35, d15) | d56 => (d35, d56) | d57 => (d36, d33) | d58 => (d37, d10) | d59 => (d37, d51) | d60 => (d38, d28) | d61 => (d39, d5) | d62 => (d39, d46) | d63 => (d40, d23) end
 | d42 => match b with | d0 => (d0, d0) | d1 => (d0, d42) | d2 => (d1, d20) | d3 => (d1, d62) | d4 => (d2, d40) | d5 => (d3, d18) | d6 => (d3, d60) | d7 => (d4, d38) | d8 => (d5, d16) | d9 => (d5, d58) | d10 => (d6, d36) | d11 => (d7, d14) | d12 => (d7, d56) | d13 => (d8, d34) | d14 => (d9, d12) | d15 => (d9, d54) | d16 => (d10, d32) | d17 => (d11, d10) | d18 => (d11, d52) | d19 => (d12, d30) | d20 => (d13, d8) | d21 => (d13, d50) | d22 => (d14, d28) | d23 => (d15, d6) | d24 => (d15, d48) | d25 => (d16, d26) | d26 => (d17, d4) | d27 => (d17, d46) | d28 => (d18, d24) | d29 => (d19, d2) | d30 => (d19, d44) | d31 => (d20, d22) | d32 => (d21, d0) | d33 => (d21, d42) | d34 => (d22, d20) | d35 => (d22, d62) | d36 => (d23, d40) | d37 => (d24, d18) | d38 => (d24, d60) | d39 => (d25, d38) | d40 => (d26, d16) | d41 => (d26, d58) | d42 => (d27, d36) | d43 => (d28, d14) | d44 => (d28, d56) | d45 => (d29, d34) | d46 => (d30, d12) | d47 => (d30, d54) | d48 => (d31, d32) | d49 => (d32, d10) | d50 => (d32, d52) | d51 => (d33, d30) | d52 => (d34, d8) | d53 => (d34, d50) | d54 => (d35, d28) | d55 => (d36, d6) | d56 => (d36, d48) | d57 => (d37, d26) | d58 => (d38, d4) | d59 => (d38, d46) | d60 => (d39, d24) | d61 => (d40, d2) | d62 => (d40, d44) | d63 => (d41, d22) end
 | d43 => match b with | d0 => (d0, d0) | d1 => (d0, d43) | d2 => (d1, d22) | d3 => (d2, d1) | d4 => (d2, d44) | d5 => (d3, d23) | d6 => (d4, d2) | d7 => (d4, d45) | d8 => (d5, d24) | d9 => (d6, d3) | d10 => (d6, d46) | d11 => (d7, d25) | d12 => (d8, d4) | d13 => (d8, d47) | d14 => (d9, d26) | d15 => (d10, d5) | d16 => (d10, d48) | d17 => (d11, d27) | d18 => (d12, d6) | d19 => (d12, d49) | d20 => (d13, d28) | d21 => (d14, d7) | d22 => (d14, d50) | d23 => (d15, d29) | d24 => (d16, d8) | d25 => (d16, d51) | d26 => (d17, d30) | d27 => (d18, d9) | d28 => (d18, d52) | d29 => (d19, d31) | d30 => (d20, d10) | d31 => (d20, d53) | d32 => (d21, d32) | d33 => (d22, d11) | d34 => (d22, d54) | d35 => (d23, d33) | d36 => (d24, d12) | d37 => (d24, d55) | d38 => (d25, d34) | d39 => (d26, d13) | d40 => (d26, d56) | d41 => (d27, d35) | d42 => (d28, d14) | d43 => (d28, d57) | d44 => (d29, d36) | d45 => (d30, d15) | d46 => (d30, d58) | d47 => (d31, d37) | d48 => (d32, d16) | d49 => (d32, d59) | d50 => (d33, d38) | d51 => (d34, d17) | d52 => (d34, d60) | d53 => (d35, d39) | d54 => (d36, d18) | d55 => (d36, d61) | d56 => (d37, d40) | d57 => (d38, d19) | d58 => (d38, d62) | d59 => (d39, d41) | d60 => (d40, d20) | d61 => (d40, d63) | d62 => (d41, d42) | d63 => (d42, d21) end
 | d44 => match b with | d0 => (d0, d0) | d1 => (d0, d44) | d2 => (d1, d24) | d3 => (d2, d4) | d4 => (d2, d48) | d5 => (d3, d28) | d6 => (d4, d8) | d7 => (d4, d52) | d8 => (d5, d32) | d9 => (d6, d12) | d10 => (d6, d56) | d11 => (d7, d36) | d12 => (d8, d16) | d13 => (d8, d60) | d14 => (d9, d40) | d15 => (d10, d20) | d16 => (d11, d0) | d17 => (d11, d44) | d18 => (d12, d24) | d19 => (d13, d4) | d20 => (d13, d48) | d21 => (d14, d28) | d22 => (d15, d8) | d23 => (d15, d52) | d24 => (d16, d32) | d25 => (d17, d12) | d26 => (d17, d56) | d27 => (d18, d36) | d28 => (d19, d16) | d29 => (d19, d60) | d30 => (d20, d40) | d31 => (d21, d20) | d32 => (d22, d0) | d33 => (d22, d44) | d34 => (d23, d24) | d35 => (d24, d4) | d36 => (d24, d48) | d37 => (d25, d28) | d38 => (d26, d8) | d39 => (d26, d52) | d40 => (d27, d32) | d41 => (d28, d12) | d42 => (d28, d56) | d43 => (d29, d36) | d44 => (d30, d16) | d45 => (d30, d60) | d46 => (d31, d40) | d47 => (d32, d20) | d48 => (d33, d0) | d49 => (d33, d44) | d50 => (d34, d24) | d51 => (d35, d4) | d52 => (d35, d48) | d53 => (d36, d28) | d54 => (d37, d8) | d55 => (d37, d52) | d56 => (d38, d32) | d57 => (d39, d12) | d58 => (d39, d56) | d59 => (d40, d36) | d60 => (d41, d16) | d61 => (d41, d60) | d62 => (d42, d40) | d63 => (d43, d20) end
 | d45 => match b with | d0 => (d0, d0) | d1 => (d0, d45) | d2 => (d1, d26) | d3 => (d2, d7) | d4 => (d2, d52) | d5 => (d3, d33) | d6 => (d4, d14) | d7 => (d4, d59) | d8 => (d5, d40) | d9 => (d6, d21) | d10 => (d7, d2) | d11 => (d7, d47) | d12 => (d8, d28) | d13 => (d9, d9) | d14 => (d9, d54) | d15 => (d10, d35) | d16 => (d11, d16) | d17 => (d11, d61) | d18 => (d12, d42) | d19 => (d13, d23) | d20 => (d14, d4) | d21 => (d14, d49) | d22 => (d15, d30) | d23 => (d16, d11) | d24 => (d16, d56) | d25 => (d17, d37) | d26 => (d18, d18) | d27 => (d18, d63) | d28 => (d19, d44) | d29 => (d20, d25) | d30 => (d21, d6) | d31 => (d21, d51) | d32 => (d22, d32) | d33 => (d23, d13) | d34 => (d23, d58) | d35 => (d24, d39) | d36 => (d25, d20) | d37 => (d26, d1) | d38 => (d26, d46) | d39 => (d27, d27) | d40 => (d28, d8) | d41 => (d28, d53) | d42 => (d29, d34) | d43 => (d30, d15) | d44 => (d30, d60) | d45 => (d31, d41) | d46 => (d32, d22) | d47 => (d33, d3) | d48 => (d33, d48) | d49 => (d34, d29) | d50 => (d35, d10) | d51 => (d35, d55) | d52 => (d36, d36) | d53 => (d37, d17) | d54 => (d37, d62) | d55 => (d38, d43) | d56 => (d39, d24) | d57 => (d40, d5) | d58 => (d40, d50) | d59 => (d41, d31) | d60 => (d42, d12) | d61 => (d42, d57) | d62 => (d43, d38) | d63 => (d44, d19) end
 | d46 => match b with | d0 => (d0, d0) | d1 => (d0, d46) | d2 => (d1, d28) | d3 => (d2, d10) | d4 => (d2, d56) | d5 => (d3, d38) | d6 => (d4, d20) | d7 => (d5, d2) | d8 => (d5, d48) | d9 => (d6, d30) | d10 => (d7, d12) | d11 => (d7, d58) | d12 => (d8, d40) | d13 => (d9, d22) | d14 => (d10, d4) | d15 => (d10, d50) | d16 => (d11, d32) | d17 => (d12, d14) | d18 => (d12, d60) | d19 => (d13, d42) | d20 => (d14, d24) | d21 => (d15, d6) | d22 => (d15, d52) | d23 => (d16, d34) | d24 => (d17, d16) | d25 => (d17, d62) | d26 => (d18, d44) | d27 => (d19, d26) | d28 => (d20, d8) | d29 => (d20, d54) | d30 => (d21, d36) | d31 => (d22, d18) | d32 => (d23, d0) | d33 => (d23, d46) | d34 => (d24, d28) | d35 => (d25, d10) | d36 => (d25, d56) | d37 => (d26, d38) | d38 => (d27, d20) | d39 => (d28, d2) | d40 => (d28, d48) | d41 => (d29, d30) | d42 => (d30, d12) | d43 => (d30, d58) | d44 => (d31, d40) | d45 => (d32, d22) | d46 => (d33, d4) | d47 => (d33, d50) | d48 => (d34, d32) | d49 => (d35, d14) | d50 => (d35, d60) | d51 => (d36, d42) | d52 => (d37, d24) | d53 => (d38, d6) | d54 => (d38, d52) | d55 => (d39, d34) | d56 => (d40, d16) | d57 => (d40, d62) | d58 => (d41, d44) | d59 => (d42, d26) | d60 => (d43, d8) | d61 => (d43, d54) | d62 => (d44, d36) | d63 => (d45, d18) end
 | d47 => match b with | d0 => (d0, d0) | d1 => (d0, d47) | d2 => (d1, d30) | d3 => (d2, d13) | d4 => (d2, d60) | d5 => (d3, d43) | d6 => (d4, d26) | d7 => (d5, d9) | d8 => (d5, d56) | d9 => (d6, d39) | d10 => (d7, d22) | d11 => (d8, d5) | d12 => (d8, d52) | d13 => (d9, d35) | d14 => (d10, d18) | d15 => (d11, d1) | d16 => (d11, d48) | d17 => (d12, d31) | d18 => (d13, d14) | d19 => (d13, d61) | d20 => (d14, d44) | d21 => (d15, d27) | d22 => (d16, d10) | d23 => (d16, d57) | d24 => (d17, d40) | d25 => (d18, d23) | d26 => (d19, d6) | d27 => (d19, d53) | d28 => (d20, d36) | d29 => (d21, d19) | d30 => (d22, d2) | d31 => (d22, d49) | d32 => (d23, d32) | d33 => (d24, d15) | d34 => (d24, d62) | d35 => (d25, d45) | d36 => (d26, d28) | d37 => (d27, d11) | d38 => (d27, d58) | d39 => (d28, d41) | d40 => (d29, d24) | d41 => (d30, d7) | d42 => (d30, d54) | d43 => (d31, d37) | d44 => (d32, d20) | d45 => (d33, d3) | d46 => (d33, d50) | d47 => (d34, d33) | d48 => (d35, d16) | d49 => (d35, d63) | d50 => (d36, d46) | d51 => (d37, d29) | d52 => (d38, d12) | d53 => (d38, d59) | d54 => (d39, d42) | d55 => (d40, d25) | d56 => (d41, d8) | d57 => (d41, d55) | d58 => (d42, d38) | d59 => (d43, d21) | d60 => (d44, d4) | d61 => (d44, d51) | d62 => (d45, d34) | d63 => (d46, d17) end
 | d48 => match b with | d0 => (d0, d0) | d1 => (d0, d48) | d2 => (d1, d32) | d3 => (d2, d16) | d4 => (d3, d0) | d5 => (d3, d48) | d6 => (d4, d32) | d7 => (d5, d16) | d8 => (d6, d0) | d9 => (d6, d48) | d10 => (d7, d32) | d11 => (d8, d16) | d12 => (d9, d0) | d13 => (d9, d48) | d14 => (d10, d32) | d15 => (d11, d16) | d16 => (d12, d0) | d17 => (d12, d48) | d18 => (d13, d32) | d19 => (d14, d16) | d20 => (d15, d0) | d21 => (d15, d48) | d22 => (d16, d32) | d23 => (d17, d16) | d24 => (d18, d0) | d25 => (d18, d48) | d26 => (d19, d32) | d27 => (d20, d16) | d28 => (d21, d0) | d29 => (d21, d48) | d30 => (d22, d32) | d31 => (d23, d16) | d32 => (d24, d0) | d33 => (d24, d48) | d34 => (d25, d32) | d35 => (d26, d16) | d36 => (d27, d0) | d37 => (d27, d48) | d38 => (d28, d32) | d39 => (d29, d16) | d40 => (d30, d0) | d41 => (d30, d48) | d42 => (d31, d32) | d43 => (d32, d16) | d44 => (d33, d0) | d45 => (d33, d48) | d46 => (d34, d32) | d47 => (d35, d16) | d48 => (d36, d0) | d49 => (d36, d48) | d50 => (d37, d32) | d51 => (d38, d16) | d52 => (d39, d0) | d53 => (d39, d48) | d54 => (d40, d32) | d55 => (d41, d16) | d56 => (d42, d0) | d57 => (d42, d48) | d58 => (d43, d32) | d59 => (d44, d16) | d60 => (d45, d0) | d61 => (d45, d48) | d62 => (d46, d32) | d63 => (d47, d16) end
 | d49 => match b with | d0 => (d0, d0) | d1 => (d0, d49) | d2 => (d1, d34) | d3 => (d2, d19) | d4 => (d3, d4) | d5 => (d3, d53) | d6 => (d4, d38) | d7 => (d5, d23) | d8 => (d6, d8) | d9 => (d6, d57) | d10 => (d7, d42) | d11 => (d8, d27) | d12 => (d9, d12) | d13 => (d9, d61) | d14 => (d10, d46) | d15 => (d11, d31) | d16 => (d12, d16) | d17 => (d13, d1) | d18 => (d13, d50) | d19 => (d14, d35) | d20 => (d15, d20) | d21 => (d16, d5) | d22 => (d16, d54) | d23 => (d17, d39) | d24 => (d18, d24) | d25 => (d19, d9) | d26 => (d19, d58) | d27 => (d20, d43) | d28 => (d21, d28) | d29 => (d22, d13) | d30 => (d22, d62) | d31 => (d23, d47) | d32 => (d24, d32) | d33 => (d25, d17) | d34 => (d26, d2) | d35 => (d26, d51) | d36 => (d27, d36) | d37 => (d28, d21) | d38 => (d29, d6) | d39 => (d29, d55) | d40 => (d30, d40) | d41 => (d31, d25) | d42 => (d32, d10) | d43 => (d32, d59) | d44 => (d33, d44) | d45 => (d34, d29) | d46 => (d35, d14) | d47 => (d35, d63) | d48 => (d36, d48) | d49 => (d37, d33) | d50 => (d38, d18) | d51 => (d39, d3) | d52 => (d39, d52) | d53 => (d40, d37) | d54 => (d41, d22) | d55 => (d42, d7) | d56 => (d42, d56) | d57 => (d43, d41) | d58 => (d44, d26) | d59 => (d45, d11) | d60 => (d45, d60) | d61 => (d46, d45) | d62 => (d47, d30) | d63 => (d48, d15) end
 | d50 => match b with | d0 => (d0, d0) | d1 => (d0, d50) | d2 => (d1, d36) | d3 => (d2, d22) | d4 => (d3, d8) | d5 => (d3, d58) | d6 => (d4, d44) | d7 => (d5, d30) | d8 => (d6, d16) | d9 => (d7, d2) | d10 => (d7, d52) | d11 => (d8, d38) | d12 => (d9, d24) | d13 => (d10, d10) | d14 => (d10, d60) | d15 => (d11, d46) | d16 => (d12, d32) | d17 => (d13, d18) | d18 => (d14, d4) | d19 => (d14, d54) | d20 => (d15, d40) | d21 => (d16, d26) | d22 => (d17, d12) | d23 => (d17, d62) | d24 => (d18, d48) | d25 => (d19, d34) | d26 => (d20, d20) | d27 => (d21, d6) | d28 => (d21, d56) | d29 => (d22, d42) | d30 => (d23, d28) | d31 => (d24, d14) | d32 => (d25, d0) | d33 => (d25, d50) | d34 => (d26, d36) | d35 => (d27, d22) | d36 => (d28, d8) | d37 => (d28, d58) | d38 => (d29, d44) | d39 => (d30, d30) | d40 => (d31, d16) | d41 => (d32, d2) | d42 => (d32, d52) | d43 => (d33, d38) | d44 => (d34, d24) | d45 => (d35, d10) | d46 => (d35, d60) | d47 => (d36, d46) | d48 => (d37, d32) | d49 => (d38, d18) | d50 => (d39, d4) | d51 => (d39, d54) | d52 => (d40, d40) | d53 => (d41, d26) | d54 => (d42, d12) | d55 => (d42, d62) | d56 => (d43, d48) | d57 => (d44, d34) | d58 => (d45, d20) | d59 => (d46, d6) | d60 => (d46, d56) | d61 => (d47, d42) | d62 => (d48, d28) | d63 => (d49, d14) end
 | d51 => match b with | d0 => (d0, d0) | d1 => (d0, d51) | d2 => (d1, d38) | d3 => (d2, d25) | d4 => (d3, d12) | d5 => (d3, d63) | d6 => (d4, d50) | d7 => (d5, d37) | d8 => (d6, d24) | d9 => (d7, d11) | d10 => (d7, d62) | d11 => (d8, d49) | d12 => (d9, d36) | d13 => (d10, d23) | d14 => (d11, d10) | d15 => (d11, d61) | d16 => (d12, d48) | d17 => (d13, d35) | d18 => (d14, d22) | d19 => (d15, d9) | d20 => (d15, d60) | d21 => (d16, d47) | d22 => (d17, d34) | d23 => (d18, d21) | d24 => (d19, d8) | d25 => (d19, d59) | d26 => (d20, d46) | d27 => (d21, d33) | d28 => (d22, d20) | d29 => (d23, d7) | d30 => (d23, d58) | d31 => (d24, d45) | d32 => (d25, d32) | d33 => (d26, d19) | d34 => (d27, d6) | d35 => (d27, d57) | d36 => (d28, d44) | d37 => (d29, d31) | d38 => (d30, d18) | d39 => (d31, d5) | d40 => (d31, d56) | d41 => (d32, d43) | d42 => (d33, d30) | d43 => (d34, d17) | d44 => (d35, d4) | d45 => (d35, d55) | d46 => (d36, d42) | d47 => (d37, d29) | d48 => (d38, d16) | d49 => (d39, d3) | d50 => (d39, d54) | d51 => (d40, d41) | d52 => (d41, d28) | d53 => (d42, d15) | d54 => (d43, d2) | d55 => (d43, d53) | d56 => (d44, d40) | d57 => (d45, d27) | d58 => (d46, d14) | d59 => (d47, d1) | d60 => (d47, d52) | d61 => (d48, d39) | d62 => (d49, d26) | d63 => (d50, d13) end
 | d52 => match b with | d0 => (d0, d0) | d1 => (d0, d52) | d2 => (d1, d40) | d3 => (d2, d28) | d4 => (d3, d16) | d5 => (d4, d4) | d6 => (d4, d56) | d7 => (d5, d44) | d8 => (d6, d32) | d9 => (d7, d20) | d10 => (d8, d8) | d11 => (d8, d60) | d12 => (d9, d48) | d13 => (d10, d36) | d14 => (d11, d24) | d15 => (d12, d12) | d16 => (d13, d0) | d17 => (d13, d52) | d18 => (d14, d40) | d19 => (d15, d28) | d20 => (d16, d16) | d21 => (d17, d4) | d22 => (d17, d56) | d23 => (d18, d44) | d24 => (d19, d32) | d25 => (d20, d20) | d26 => (d21, d8) | d27 => (d21, d60) | d28 => (d22, d48) | d29 => (d23, d36) | d30 => (d24, d24) | d31 => (d25, d12) | d32 => (d26, d0) | d33 => (d26, d52) | d34 => (d27, d40) | d35 => (d28, d28) | d36 => (d29, d16) | d37 => (d30, d4) | d38 => (d30, d56) | d39 => (d31, d44) | d40 => (d32, d32) | d41 => (d33, d20) | d42 => (d34, d8) | d43 => (d34, d60) | d44 => (d35, d48) | d45 => (d36, d36) | d46 => (d37, d24) | d47 => (d38, d12) | d48 => (d39, d0) | d49 => (d39, d52) | d50 => (d40, d40) | d51 => (d41, d28) | d52 => (d42, d16) | d53 => (d43, d4) | d54 => (d43, d56) | d55 => (d44, d44) | d56 => (d45, d32) | d57 => (d46, d20) | d58 => (d47, d8) | d59 => (d47, d60) | d60 => (d48, d48) | d61 => (d49, d36) | d62 => (d50, d24) | d63 => (d51, d12) end
 | d53 => match b with | d0 => (d0, d0) | d1 => (d0, d53) | d2 => (d1, d42) | d3 => (d2, d31) | d4 => (d3, d20) | d5 => (d4, d9) | d6 => (d4, d62) | d7 => (d5, d51) | d8 => (d6, d40) | d9 => (d7, d29) | d10 => (d8, d18) | d11 => (d9, d7) | d12 => (d9, d60) | d13 => (d10, d49) | d14 => (d11, d38) | d15 => (d12, d27) | d16 => (d13, d16) | d17 => (d14, d5) | d18 => (d14, d58) | d19 => (d15, d47) | d20 => (d16, d36) | d21 => (d17, d25) | d22 => (d18, d14) | d23 => (d19, d3) | d24 => (d19, d56) | d25 => (d20, d45) | d26 => (d21, d34) | d27 => (d22, d23) | d28 => (d23, d12) | d29 => (d24, d1) | d30 => (d24, d54) | d31 => (d25, d43) | d32 => (d26, d32) | d33 => (d27, d21) | d34 => (d28, d10) | d35 => (d28, d63) | d36 => (d29, d52) | d37 => (d30, d41) | d38 => (d31, d30) | d39 => (d32, d19) | d40 => (d33, d8) | d41 => (d33, d61) | d42 => (d34, d50) | d43 => (d35, d39) | d44 => (d36, d28) | d45 => (d37, d17) | d46 => (d38, d6) | d47 => (d38, d59) | d48 => (d39, d48) | d49 => (d40, d37) | d50 => (d41, d26) | d51 => (d42, d15) | d52 => (d43, d4) | d53 => (d43, d57) | d54 => (d44, d46) | d55 => (d45, d35) | d56 => (d46, d24) | d57 => (d47, d13) | d58 => (d48, d2) | d59 => (d48, d55) | d60 => (d49, d44) | d61 => (d50, d33) | d62 => (d51, d22) | d63 => (d52, d11) end
 | d54 => match b with | d0 => (d0, d0) | d1 => (d0, d54) | d2 => (d1, d44) | d3 => (d2, d34) | d4 => (d3, d24) | d5 => (d4, d14) | d6 => (d5, d4) | d7 => (d5, d58) | d8 => (d6, d48) | d9 => (d7, d38) | d10 => (d8, d28) | d11 => (d9, d18) | d12 => (d10, d8) | d13 => (d10, d62) | d14 => (d11, d52) | d15 => (d12, d42) | d16 => (d13, d32) | d17 => (d14, d22) | d18 => (d15, d12) | d19 => (d16, d2) | d20 => (d16, d56) | d21 => (d17, d46) | d22 => (d18, d36) | d23 => (d19, d26) | d24 => (d20, d16) | d25 => (d21, d6) | d26 => (d21, d60) | d27 => (d22, d50) | d28 => (d23, d40) | d29 => (d24, d30) | d30 => (d25, d20) | d31 => (d26, d10) | d32 => (d27, d0) | d33 => (d27, d54) | d34 => (d28, d44) | d35 => (d29, d34) | d36 => (d30, d24) | d37 => (d31, d14) | d38 => (d32, d4) | d39 => (d32, d58) | d40 => (d33, d48) | d41 => (d34, d38) | d42 => (d35, d28) | d43 => (d36, d18) | d44 => (d37, d8) | d45 => (d37, d62) | d46 => (d38, d52) | d47 => (d39, d42) | d48 => (d40, d32) | d49 => (d41, d22) | d50 => (d42, d12) | d51 => (d43, d2) | d52 => (d43, d56) | d53 => (d44, d46) | d54 => (d45, d36) | d55 => (d46, d26) | d56 => (d47, d16) | d57 => (d48, d6) | d58 => (d48, d60) | d59 => (d49, d50) | d60 => (d50, d40) | d61 => (d51, d30) | d62 => (d52, d20) | d63 => (d53, d10) end
 | d55 => match b with | d0 => (d0, d0) | d1 => (d0, d55) | d2 => (d1, d46) | d3 => (d2, d37) | d4 => (d3, d28) | d5 => (d4, d19) | d6 => (d5, d10) | d7 => (d6, d1) | d8 => (d6, d56) | d9 => (d7, d47) | d10 => (d8, d38) | d11 => (d9, d29) | d12 => (d10, d20) | d13 => (d11, d11) | d14 => (d12, d2) | d15 => (d12, d57) | d16 => (d13, d48) | d17 => (d14, d39) | d18 => (d15, d30) | d19 => (d16, d21) | d20 => (d17, d12) | d21 => (d18, d3) | d22 => (d18, d58) | d23 => (d19, d49) | d24 => (d20, d40) | d25 => (d21, d31) | d26 => (d22, d22) | d27 => (d23, d13) | d28 => (d24, d4) | d29 => (d24, d59) | d30 => (d25, d50) | d31 => (d26, d41) | d32 => (d27, d32) | d33 => (d28, d23) | d34 => (d29, d14) | d35 => (d30, d5) | d36 => (d30, d60) | d37 => (d31, d51) | d38 => (d32, d42) | d39 => (d33, d33) | d40 => (d34, d24) | d41 => (d35, d15) | d42 => (d36, d6) | d43 => (d36, d61) | d44 => (d37, d52) | d45 => (d38, d43) | d46 => (d39, d34) | d47 => (d40, d25) | d48 => (d41, d16) | d49 => (d42, d7) | d50 => (d42, d62) | d51 => (d43, d53) | d52 => (d44, d44) | d53 => (d45, d35) | d54 => (d46, d26) | d55 => (d47, d17) | d56 => (d48, d8) | d57 => (d48, d63) | d58 => (d49, d54) | d59 => (d50, d45) | d60 => (d51, d36) | d61 => (d52, d27) | d62 => (d53, d18) | d63 => (d54, d9) end
 | d56 => match b with | d0 => (d0, d0) | d1 => (d0, d56) | d2 => (d1, d48) | d3 => (d2, d40) | d4 => (d3, d32) | d5 => (d4, d24) | d6 => (d5, d16) | d7 => (d6, d8) | d8 => (d7, d0) | d9 => (d7, d56) | d10 => (d8, d48) | d11 => (d9, d40) | d12 => (d10, d32) | d13 => (d11, d24) | d14 => (d12, d16) | d15 => (d13, d8) | d16 => (d14, d0) | d17 => (d14, d56) | d18 => (d15, d48) | d19 => (d16, d40) | d20 => (d17, d32) | d21 => (d18, d24) | d22 => (d19, d16) | d23 => (d20, d8) | d24 => (d21, d0) | d25 => (d21, d56) | d26 => (d22, d48) | d27 => (d23, d40) | d28 => (d24, d32) | d29 => (d25, d24) | d30 => (d26, d16) | d31 => (d27, d8) | d32 => (d28, d0) | d33 => (d28, d56) | d34 => (d29, d48) | d35 => (d30, d40) | d36 => (d31, d32) | d37 => (d32, d24) | d38 => (d33, d16) | d39 => (d34, d8) | d40 => (d35, d0) | d41 => (d35, d56) | d42 => (d36, d48) | d43 => (d37, d40) | d44 => (d38, d32) | d45 => (d39, d24) | d46 => (d40, d16) | d47 => (d41, d8) | d48 => (d42, d0) | d49 => (d42, d56) | d50 => (d43, d48) | d51 => (d44, d40) | d52 => (d45, d32) | d53 => (d46, d24) | d54 => (d47, d16) | d55 => (d48, d8) | d56 => (d49, d0) | d57 => (d49, d56) | d58 => (d50, d48) | d59 => (d51, d40) | d60 => (d52, d32) | d61 => (d53, d24) | d62 => (d54, d16) | d63 => (d55, d8) end
 | d57 => match b with | d0 => (d0, d0) | d1 => (d0, d57) | d2 => (d1, d50) | d3 => (d2, d43) | d4 => (d3, d36) | d5 => (d4, d29) | d6 => (d5, d22) | d7 => (d6, d15) | d8 => (d7, d8) | d9 => (d8, d1) | d10 => (d8, d58) | d11 => (d9, d51) | d12 => (d10, d44) | d13 => (d11, d37) | d14 => (d12, d30) | d15 => (d13, d23) | d16 => (d14, d16) | d17 => (d15, d9) | d18 => (d16, d2) | d19 => (d16, d59) | d20 => (d17, d52) | d21 => (d18, d45) | d22 => (d19, d38) | d23 => (d20, d31) | d24 => (d21, d24) | d25 => (d22, d17) | d26 => (d23, d10) | d27 => (d24, d3) | d28 => (d24, d60) | d29 => (d25, d53) | d30 => (d26, d46) | d31 => (d27, d39) | d32 => (d28, d32) | d33 => (d29, d25) | d34 => (d30, d18) | d35 => (d31, d11) | d36 => (d32, d4) | d37 => (d32, d61) | d38 => (d33, d54) | d39 => (d34, d47) | d40 => (d35, d40) | d41 => (d36, d33) | d42 => (d37, d26) | d43 => (d38, d19) | d44 => (d39, d12) | d45 => (d40, d5) | d46 => (d40, d62) | d47 => (d41, d55) | d48 => (d42, d48) | d49 => (d43, d41) | d50 => (d44, d34) | d51 => (d45, d27) | d52 => (d46, d20) | d53 => (d47, d13) | d54 => (d48, d6) | d55 => (d48, d63) | d56 => (d49, d56) | d57 => (d50, d49) | d58 => (d51, d42) | d59 => (d52, d35) | d60 => (d53, d28) | d61 => (d54, d21) | d62 => (d55, d14) | d63 => (d56, d7) end
 | d58 => match b with | d0 => (d0, d0) | d1 => (d0, d58) | d2 => (d1, d52) | d3 => (d2, d46) | d4 => (d3, d40) | d5 => (d4, d34) | d6 => (d5, d28) | d7 => (d6, d22) | d8 => (d7, d16) | d9 => (d8, d10) | d10 => (d9, d4) | d11 => (d9, d62) | d12 => (d10, d56) | d13 => (d11, d50) | d14 => (d12, d44) | d15 => (d13, d38) | d16 => (d14, d32) | d17 => (d15, d26) | d18 => (d16, d20) | d19 => (d17, d14) | d20 => (d18, d8) | d21 => (d19, d2) | d22 => (d19, d60) | d23 => (d20, d54) | d24 => (d21, d48) | d25 => (d22, d42) | d26 => (d23, d36) | d27 => (d24, d30) | d28 => (d25, d24) | d29 => (d26, d18) | d30 => (d27, d12) | d31 => (d28, d6) | d32 => (d29, d0) | d33 => (d29, d58) | d34 => (d30, d52) | d35 => (d31, d46) | d36 => (d32, d40) | d37 => (d33, d34) | d38 => (d34, d28) | d39 => (d35, d22) | d40 => (d36, d16) | d41 => (d37, d10) | d42 => (d38, d4) | d43 => (d38, d62) | d44 => (d39, d56) | d45 => (d40, d50) | d46 => (d41, d44) | d47 => (d42, d38) | d48 => (d43, d32) | d49 => (d44, d26) | d50 => (d45, d20) | d51 => (d46, d14) | d52 => (d47, d8) | d53 => (d48, d2) | d54 => (d48, d60) | d55 => (d49, d54) | d56 => (d50, d48) | d57 => (d51, d42) | d58 => (d52, d36) | d59 => (d53, d30) | d60 => (d54, d24) | d61 => (d55, d18) | d62 => (d56, d12) | d63 => (d57, d6) end
 | d59 => match b with | d0 => (d0, d0) | d1 => (d0, d59) | d2 => (d1, d54) | d3 => (d2, d49) | d4 => (d3, d44) | d5 => (d4, d39) | d6 => (d5, d34) | d7 => (d6, d29) | d8 => (d7, d24) | d9 => (d8, d19) | d10 => (d9, d14) | d11 => (d10, d9) | d12 => (d11, d4) | d13 => (d11, d63) | d14 => (d12, d58) | d15 => (d13, d53) | d16 => (d14, d48) | d17 => (d15, d43) | d18 => (d16, d38) | d19 => (d17, d33) | d20 => (d18, d28) | d21 => (d19, d23) | d22 => (d20, d18) | d23 => (d21, d13) | d24 => (d22, d8) | d25 => (d23, d3) | d26 => (d23, d62) | d27 => (d24, d57) | d28 => (d25, d52) | d29 => (d26, d47) | d30 => (d27, d42) | d31 => (d28, d37) | d32 => (d29, d32) | d33 => (d30, d27) | d34 => (d31, d22) | d35 => (d32, d17) | d36 => (d33, d12) | d37 => (d34, d7) | d38 => (d35, d2) | d39 => (d35, d61) | d40 => (d36, d56) | d41 => (d37, d51) | d42 => (d38, d46) | d43 => (d39, d41) | d44 => (d40, d36) | d45 => (d41, d31) | d46 => (d42, d26) | d47 => (d43, d21) | d48 => (d44, d16) | d49 => (d45, d11) | d50 => (d46, d6) | d51 => (d47, d1) | d52 => (d47, d60) | d53 => (d48, d55) | d54 => (d49, d50) | d55 => (d50, d45) | d56 => (d51, d40) | d57 => (d52, d35) | d58 => (d53, d30) | d59 => (d54, d25) | d60 => (d55, d20) | d61 => (d56, d15) | d62 => (d57, d10) | d63 => (d58, d5) end
 | d60 => match b with | d0 => (d0, d0) | d1 => (d0, d60) | d2 => (d1, d56) | d3 => (d2, d52) | d4 => (d3, d48) | d5 => (d4, d44) | d6 => (d5, d40) | d7 => (d6, d36) | d8 => (d7, d32) | d9 => (d8, d28) | d10 => (d9, d24) | d11 => (d10, d20) | d12 => (d11, d16) | d13 => (d12, d12) | d14 => (d13, d8) | d15 => (d14, d4) | d16 => (d15, d0) | d17 => (d15, d60) | d18 => (d16, d56) | d19 => (d17, d52) | d20 => (d18, d48) | d21 => (d19, d44) | d22 => (d20, d40) | d23 => (d21, d36) | d24 => (d22, d32) | d25 => (d23, d28) | d26 => (d24, d24) | d27 => (d25, d20) | d28 => (d26, d16) | d29 => (d27, d12) | d30 => (d28, d8) | d31 => (d29, d4) | d32 => (d30, d0) | d33 => (d30, d60) | d34 => (d31, d56) | d35 => (d32, d52) | d36 => (d33, d48) | d37 => (d34, d44) | d38 => (d35, d40) | d39 => (d36, d36) | d40 => (d37, d32) | d41 => (d38, d28) | d42 => (d39, d24) | d43 => (d40, d20) | d44 => (d41, d16) | d45 => (d42, d12) | d46 => (d43, d8) | d47 => (d44, d4) | d48 => (d45, d0) | d49 => (d45, d60) | d50 => (d46, d56) | d51 => (d47, d52) | d52 => (d48, d48) | d53 => (d49, d44) | d54 => (d50, d40) | d55 => (d51, d36) | d56 => (d52, d32) | d57 => (d53, d28) | d58 => (d54, d24) | d59 => (d55, d20) | d60 => (d56, d16) | d61 => (d57, d12) | d62 => (d58, d8) | d63 => (d59, d4) end
 | d61 => match b with | d0 => (d0, d0) | d1 => (d0, d61) | d2 => (d1, d58) | d3 => (d2, d55) | d4 => (d3, d52) | d5 => (d4, d49) | d6 => (d5, d46) | d7 => (d6, d43) | d8 => (d7, d40) | d9 => (d8, d37) | d10 => (d9, d34) | d11 => (d10, d31) | d12 => (d11, d28) | d13 => (d12, d25) | d14 => (d13, d22) | d15 => (d14, d19) | d16 => (d15, d16) | d17 => (d16, d13) | d18 => (d17, d10) | d19 => (d18, d7) | d20 => (d19, d4) | d21 => (d20, d1) | d22 => (d20, d62) | d23 => (d21, d59) | d24 => (d22, d56) | d25 => (d23, d53) | d26 => (d24, d50) | d27 => (d25, d47) | d28 => (d26, d44) | d29 => (d27, d41) | d30 => (d28, d38) | d31 => (d29, d35) | d32 => (d30, d32) | d33 => (d31, d29) | d34 => (d32, d26) | d35 => (d33, d23) | d36 => (d34, d20) | d37 => (d35, d17) | d38 => (d36, d14) | d39 => (d37, d11) | d40 => (d38, d8) | d41 => (d39, d5) | d42 => (d40, d2) | d43 => (d40, d63) | d44 => (d41, d60) | d45 => (d42, d57) | d46 => (d43, d54) | d47 => (d44, d51) | d48 => (d45, d48) | d49 => (d46, d45) | d50 => (d47, d42) | d51 => (d48, d39) | d52 => (d49, d36) | d53 => (d50, d33) | d54 => (d51, d30) | d55 => (d52, d27) | d56 => (d53, d24) | d57 => (d54, d21) | d58 => (d55, d18) | d59 => (d56, d15) | d60 => (d57, d12) | d61 => (d58, d9) | d62 => (d59, d6) | d63 => (d60, d3) end
 | d62 => match b with | d0 => (d0, d0) | d1 => (d0, d62) | d2 => (d1, d60) | d3 => (d2, d58) | d4 => (d3, d56) | d5 => (d4, d54) | d6 => (d5, d52) | d7 => (d6, d50) | d8 => (d7, d48) | d9 => (d8, d46) | d10 => (d9, d44) | d11 => (d10, d42) | d12 => (d11, d40) | d13 => (d12, d38) | d14 => (d13, d36) | d15 => (d14, d34) | d16 => (d15, d32) | d17 => (d16, d30) | d18 => (d17, d28) | d19 => (d18, d26) | d20 => (d19, d24) | d21 => (d20, d22) | d22 => (d21, d20) | d23 => (d22, d18) | d24 => (d23, d16) | d25 => (d24, d14) | d26 => (d25, d12) | d27 => (d26, d10) | d28 => (d27, d8) | d29 => (d28, d6) | d30 => (d29, d4) | d31 => (d30, d2) | d32 => (d31, d0) | d33 => (d31, d62) | d34 => (d32, d60) | d35 => (d33, d58) | d36 => (d34, d56) | d37 => (d35, d54) | d38 => (d36, d52) | d39 => (d37, d50) | d40 => (d38, d48) | d41 => (d39, d46) | d42 => (d40, d44) | d43 => (d41, d42) | d44 => (d42, d40) | d45 => (d43, d38) | d46 => (d44, d36) | d47 => (d45, d34) | d48 => (d46, d32) | d49 => (d47, d30) | d50 => (d48, d28) | d51 => (d49, d26) | d52 => (d50, d24) | d53 => (d51, d22) | d54 => (d52, d20) | d55 => (d53, d18) | d56 => (d54, d16) | d57 => (d55, d14) | d58 => (d56, d12) | d59 => (d57, d10) | d60 => (d58, d8) | d61 => (d59, d6) | d62 => (d60, d4) | d63 => (d61, d2) end
 | d63 => match b with | d0 => (d0, d0) | d1 => (d0, d63) | d2 => (d1, d62) | d3 => (d2, d61) | d4 => (d3, d60) | d5 => (d4, d59) | d6 => (d5, d58) | d7 => (d6, d57) | d8 => (d7, d56) | d9 => (d8, d55) | d10 => (d9, d54) | d11 => (d10, d53) | d12 => (d11, d52) | d13 => (d12, d51) | d14 => (d13, d50) | d15 => (d14, d49) | d16 => (d15, d48) | d17 => (d16, d47) | d18 => (d17, d46) | d19 => (d18, d45) | d20 => (d19, d44) | d21 => (d20, d43) | d22 => (d21, d42) | d23 => (d22, d41) | d24 => (d23, d40) | d25 => (d24, d39) | d26 => (d25, d38) | d27 => (d26, d37) | d28 => (d27, d36) | d29 => (d28, d35) | d30 => (d29, d34) | d31 => (d30, d33) | d32 => (d31, d32) | d33 => (d32, d31) | d34 => (d33, d30) | d35 => (d34, d29) | d36 => (d35, d28) | d37 => (d36, d27) | d38 => (d37, d26) | d39 => (d38, d25) | d40 => (d39, d24) | d41 => (d40, d23) | d42 => (d41, d22) | d43 => (d42, d21) | d44 => (d43, d20) | d45 => (d44, d19) | d46 => (d45, d18) | d47 => (d46, d17) | d48 => (d47, d16) | d49 => (d48, d15) | d50 => (d49, d14) | d51 => (d50, d13) | d52 => (d51, d12) | d53 => (d52, d11) | d54 => (d53, d10) | d55 => (d54, d9) | d56 => (d55, d8) | d57 => (d56, d7) | d58 => (d57, d6) | d59 => (d58, d5) | d60 => (d59, d4) | d61 => (d60, d3) | d62 => (d61, d2) | d63 => (d62, d1) end
 end.

(** a + b = 64 * fst + snd *)
Definition dadd (a b : dg) : bool * dg :=
 match a with
 | d0 => match b with | d0 => (false, d0) | d1 => (false, d1) | d2 => (false, d2) | d3 => (false, d3) | d4 => (false, d4) | d5 => (false, d5) | d6 => (false, d6) | d7 => (false, d7) | d8 => (false, d8) | d9 => (false, d9) | d10 => (false, d10) | d11 => (false, d11) | d12 => (false, d12) | d13 => (false, d13) | d14 => (false, d14) | d15 => (false, d15) | d16 => (false, d16) | d17 => (false, d17) | d18 => (false, d18) | d19 => (false, d19) | d20 => (false, d20) | d21 => (false, d21) | d22 => (false, d22) | d23 => (false, d23) | d24 => (false, d24) | d25 => (false, d25) | d26 => (false, d26) | d27 => (false, d27) | d28 => (false, d28) | d29 => (false, d29) | d30 => (false, d30) | d31 => (false, d31) | d32 => (false, d32) | d33 => (false, d33) | d34 => (false, d34) | d35 => (false, d35) | d36 => (false, d36) | d37 => (false, d37) | d38 => (false, d38) | d39 => (false, d39) | d40 => (false, d40) | d41 => (false, d41) | d42 => (false, d42) | d43 => (false, d43) | d44 => (false, d44) | d45 => (false, d45) | d46 => (false, d46) | d47 => (false, d47) | d48 => (false, d48) | d49 => (false, d49) | d50 => (false, d50) | d51 => (false, d51) | d52 => (false, d52) | d53 => (false, d53) | d54 => (false, d54) | d55 => (false, d55) | d56 => (false, d56) | d57 => (false, d57) | d58 => (false, d58) | d59 => (false, d59) | d60 => (false, d60) | d61 => (false, d61) | d62 => (false, d62) | d63 => (false, d63) end
 | d1 => match b with | d0 => (false, d1) | d1 => (false, d2) | d2 => (false, d3) | d3 => (false, d4) | d4 => (false, d5) | d5 => (false, d6) | d6 => (false, d7) | d7 => (false, d8) | d8 => (false, d9) | d9 => (false, d10) | d10 => (false, d11) | d11 => (false, d12) | d12 => (false, d13) | d13 => (false, d14) | d14 => (false, d15) | d15 => (false, d16) | d16 => (false, d17) | d17 => (false, d18) | d18 => (false, d19) | d19 => (false, d20) | d20 => (false, d21) | d21 => (false, d22) | d22 => (false, d23) | d23 => (false, d24) | d24 => (false, d25) | d25 => (false, d26) | d26 => (false, d27) | d27 => (false, d28) | d28 => (false, d29) | d29 => (false, d30) | d30 => (false, d31) | d31 => (false, d32) | d32 => (false, d33) | d33 => (false, d34) | d34 => (false, d35) | d35 => (false, d36) | d36 => (false, d37) | d37 => (false, d38) | d38 => (false, d39) | d39 => (false, d40) | d40 => (false, d41) | d41 => (false, d42) | d42 => (false, d43) | d43 => (false, d44) | d44 => (false, d45) | d45 => (false, d46) | d46 => (false, d47) | d47 => (false, d48) | d48 => (false, d49) | d49 => (false, d50) | d50 => (false, d51) | d51 => (false, d52) | d52 => (false, d53) | d53 => (false, d54) | d54 => (false, d55) | d55 => (false, d56) | d56 => (false, d57) | d57 => (false, d58) | d58 => (false, d59) | d59 => (false, d60) | d60 => (false, d61) | d61 => (false, d62) | d62 => (false, d63) | d63 => (true, d0) end
 | d2 => match b with | d0 => (false, d2) | d1 => (false, d3) | d2 => (false, d4) | d3 => (false, d5) | d4 => (false, d6) | d5 => (false, d7) | d6 => (false, d8) | d7 => (false, d9) | d8 => (false, d10) | d9 => (false, d11) | d10 => (false, d12) | d11 => (false, d13) | d12 => (false, d14) | d13 => (false, d15) | d14 => (false, d16) | d15 => (false, d17) | d16 => (false, d18) | d17 => (false, d19) | d18 => (false, d20) | d19 => (false, d21) | d20 => (false, d22) | d21 => (false, d23) | d22 => (false, d24) | d23 => (false, d25) | d24 => (false, d26) | d25 => (false, d27) | d26 => (false, d28) | d27 => (false, d29) | d28 => (false, d30) | d29 => (false, d31) | d30 => (false, d32) | d31 => (false, d33) | d32 => (false, d34) | d33 => (false, d35) | d34 => (false, d36) | d35 => (false, d37) | d36 => (false, d38) | d37 => (false, d39) | d38 => (false, d40) | d39 => (false, d41) | d40 => (false, d42) | d41 => (false, d43) | d42 => (false, d44) | d43 => (false, d45) | d44 => (false, d46) | d45 => (false, d47) | d46 => (false, d48) | d47 => (false, d49) | d48 => (false, d50) | d49 => (false, d51) | d50 => (false, d52) | d51 => (false, d53) | d52 => (false, d54) | d53 => (false, d55) | d54 => (false, d56) | d55 => (false, d57) | d56 => (false, d58) | d57 => (false, d59) | d58 => (false, d60) | d59 => (false, d61) | d60 => (false, d62) | d61 => (false, d63) | d62 => (true, d0) | d63 => (true, d1) end
 | d3 => match b with | d0 => (false, d3) | d1 => (false, d4) | d2 => (false, d5) | d3 => (false, d6) | d4 => (false, d7) | d5 => (false, d8) | d6 => (false, d9) | d7 => (false, d10) | d8 => (false, d11) | d9 => (false, d12) | d10 => (false, d13) | d11 => (false, d14) | d12 => (false, d15) | d13 => (false, d16) | d14 => (false, d17) | d15 => (false, d18) | d16 => (false, d19) | d17 => (false, d20) | d18 => (false, d21) | d19 => (false, d22) | d20 => (false, d23) | d21 => (false, d24) | d22 => (false, d25) | d23 => (false, d26) | d24 => (false, d27) | d25 => (false, d28) | d26 => (false, d29) | d27 => (false, d30) | d28 => (false, d31) | d29 => (false, d32) | d30 => (false, d33) | d31 => (false, d34) | d32 => (false, d35) | d33 => (false, d36) | d34 => (false, d37) | d35 => (false, d38) | d36 => (false, d39) | d37 => (false, d40) | d38 => (false, d41) | d39 => (false, d42) | d40 => (false, d43) | d41 => (false, d44) | d42 => (false, d45) | d43 => (false, d46) | d44 => (false, d47) | d45 => (false, d48) | d46 => (false, d49) | d47 => (false, d50) | d48 => (false, d51) | d49 => (false, d52) | d50 => (false, d53) | d51 => (false, d54) | d52 => (false, d55) | d53 => (false, d56) | d54 => (false, d57) | d55 => (false, d58) | d56 => (false, d59) | d57 => (false, d60) | d58 => (false, d61) | d59 => (false, d62) | d60 => (false, d63) | d61 => (true, d0) | d62 => (true, d1) | d63 => (true, d2) end
 | d4 => match b with | d0 => (false, d4) | d1 => (false, d5) | d2 => (false, d6) | d3 => (false, d7) | d4 => (false, d8) | d5 => (false, d9) | d6 => (false, d10) | d7 => (false, d11) | d8 => (false, d12) | d9 => (false, d13) | d10 => (false, d14) | d11 => (false, d15) | d12 => (false, d16) | d13 => (false, d17) | d14 => (false, d18) | d15 => (false, d19) | d16 => (false, d20) | d17 => (false, d21) | d18 => (false, d22) | d19 => (false, d23) | d20 => (false, d24) | d21 => (false, d25) | d22 => (false, d26) | d23 => (false, d27) | d24 => (false, d28) | d25 => (false, d29) | d26 => (false, d30) | d27 => (false, d31) | d28 => (false, d32) | d29 => (false, d33) | d30 => (false, d34) | d31 => (false, d35) | d32 => (false, d36) | d33 => (false, d37) | d34 => (false, d38) | d35 => (false, d39) | d36 => (false, d40) | d37 => (false, d41) | d38 => (false, d42) | d39 => (false, d43) | d40 => (false, d44) | d41 => (false, d45) | d42 => (false, d46) | d43 => (false, d47) | d44 => (false, d48) | d45 => (false, d49) | d46 => (false, d50) | d47 => (false, d51) | d48 => (false, d52) | d49 => (false, d53) | d50 => (false, d54) | d51 => (false, d55) | d52 => (false, d56) | d53 => (false, d57) | d54 => (false, d58) | d55 => (false, d59) | d56 => (false, d60) | d57 => (false, d61) | d58 => (false, d62) | d59 => (false, d63) | d60 => (true, d0) | d61 => (true, d1) | d62 => (true, d2) | d63 => (true, d3) end
 | d5 => match b with | d0 => (false, d5) | d1 => (false, d6) | d2 => (false, d7) | d3 => (false, d8) | d4 => (false, d9) | d5 => (false, d10) | d6 => (false, d11) | d7 => (false, d12) | d8 => (false, d13) | d9 => (false, d14) | d10 => (false, d15) | d11 => (false, d16) | d12 => (false, d17) | d13 => (false, d18) | d14 => (false, d19) | d15 => (false, d20) | d16 => (false, d21) | d17 => (false, d22) | d18 => (false, d23) | d19 => (false, d24) | d20 => (false, d25) | d21 => (false, d26) | d22 => (false, d27) | d23 => (false, d28) | d24 => (false, d29) | d25 => (false, d30) | d26 => (false, d31) | d27 => (false, d32) | d28 => (false, d33) | d29 => (false, d34) | d30 => (false, d35) | d31 => (false, d36) | d32 => (false, d37) | d33 => (false, d38) | d34 => (false, d39) | d35 => (false, d40) | d36 => (false, d41) | d37 => (false, d42) | d38 => (false, d43) | d39 => (false, d44) | d40 => (false, d45) | d41 => (false, d46) | d42 => (false, d47) | d43 => (false, d48) | d44 => (false, d49) | d45 => (false, d50) | d46 => (false, d51) | d47 => (false, d52) | d48 => (false, d53) | d49 => (false, d54) | d50 => (false, d55) | d51 => (false, d56) | d52 => (false, d57) | d53 => (false, d58) | d54 => (false, d59) | d55 => (false, d60) | d56 => (false, d61) | d57 => (false, d62) | d58 => (false, d63) | d59 => (true, d0) | d60 => (true, d1) | d61 => (true, d2) | d62 => (true, d3) | d63 => (true, d4) end
 | d6 => match b with | d0 => (false, d6) | d1 => (false, d7) | d2 => (false, d8) | d3 => (false, d9) | d4 => (false, d10) | d5 => (false, d11) | d6 => (false, d12) | d7 => (false, d13) | d8 => (false, d14) | d9 => (false, d15) | d10 => (false, d16) | d11 => (false, d17) | d12 => (false, d18) | d13 => (false, d19) | d14 => (false, d20) | d15 => (false, d21) | d16 => (false, d22) | d17 => (false, d23) | d18 => (false, d24) | d19 => (false, d25) | d20 => (false, d26) | d21 => (false, d27) | d22 => (false, d28) | d23 => (false, d29) | d24 => (false, d30) | d25 => (false, d31) | d26 => (false, d32) | d27 => (false, d33) | d28 => (false, d34) | d29 => (false, d35) | d30 => (false, d36) | d31 => (false, d37) | d32 => (false, d38) | d33 => (false, d39) | d34 => (false, d40) | d35 => (false, d41) | d36 => (false, d42) | d37 => (false, d43) | d38 => (false, d44) | d39 => (false, d45) | d40 => (false, d46) | d41 => (false, d47) | d42 => (false, d48) | d43 => (false, d49) | d44 => (false, d50) | d45 => (false, d51) | d46 => (false, d52) | d47 => (false, d53) | d48 => (false, d54) | d49 => (false, d55) | d50 => (false, d56) | d51 => (false, d57) | d52 => (false, d58) | d53 => (false, d59) | d54 => (false, d60) | d55 => (false, d61) | d56 => (false, d62) | d57 => (false, d63) | d58 => (true, d0) | d59 => (true, d1) | d60 => (true, d2) | d61 => (true, d3) | d62 => (true, d4) | d63 => (true, d5) end
 | d7 => match b with | d0 => (false, d7) | d1 => (false, d8) | d2 => (false, d9) | d3 => (false, d10) | d4 => (false, d11) | d5 => (false, d12) | d6 => (false, d13) | d7 => (false, d14) | d8 => (false, d15) | d9 => (false, d16) | d10 => (false, d17) | d11 => (false, d18) | d12 => (false, d19) | d13 => (false, d20) | d14 => (false, d21) | d15 => (false, d22) | d16 => (false, d23) | d17 => (false, d24) | d18 => (false, d25) | d19 => (false, d26) | d20 => (false, d27) | d21 => (false, d28) | d22 => (false, d29) | d23 => (false, d30) | d24 => (false, d31) | d25 => (false, d32) | d26 => (false, d33) | d27 => (false, d34) | d28 => (false, d35) | d29 => (false, d36) | d30 => (false, d37) | d31 => (false, d38) | d32 => (false, d39) | d33 => (false, d40) | d34 => (false, d41) | d35 => (false, d42) | d36 => (false, d43) | d37 => (false, d44) | d38 => (false, d45) | d39 => (false, d46) | d40 => (false, d47) | d41 => (false, d48) | d42 => (false, d49) | d43 => (false, d50) | d44 => (false, d51) | d45 => (false, d52) | d46 => (false, d53) | d47 => (false, d54) | d48 => (false, d55) | d49 => (false, d56) | d50 => (false, d57) | d51 => (false, d58) | d52 => (false, d59) | d53 => (false, d60) | d54 => (false, d61) | d55 => (false, d62) | d56 => (false, d63) | d57 => (true, d0) | d58 => (true, d1) | d59 => (true, d2) | d60 => (true, d3) | d61 => (true, d4) | d62 => (true, d5) | d63 => (true, d6) end
 | d8 => match b with | d0 => (false, d8) | d1 => (false, d9) | d2 => (false, d10) | d3 => (false, d11) | d4 => (false, d12) | d5 => (false, d13) | d6 => (false, d14) | d7 => (false, d15) | d8 => (false, d16) | d9 => (false, d17) | d10 => (false, d18) | d11 => (false, d19) | d12 => (false, d20) | d13 => (false, d21) | d14 => (false, d22) | d15 => (false, d23) | d16 => (false, d24) | d17 => (false, d25) | d18 => (false, d26) | d19 => (false, d27) | d20 => (false, d28) | d21 => (false, d29) | d22 => (false, d30) | d23 => (false, d31) | d24 => (false, d32) | d25 => (false, d33) | d26 => (false, d34) | d27 => (false, d35) | d28 => (false, d36) | d29 => (false, d37) | d30 => (false, d38) | d31 => (false, d39) | d32 => (false, d40) | d33 => (false, d41) | d34 => (false, d42) | d35 => (false, d43) | d36 => (false, d44) | d37 => (false, d45) | d38 => (false, d46) | d39 => (false, d47) | d40 => (false, d48) | d41 => (false, d49) | d42 => (false, d50) | d43 => (false, d51) | d44 => (false, d52) | d45 => (false, d53) | d46 => (false, d54) | d47 => (false, d55) | d48 => (false, d56) | d49 => (false, d57) | d50 => (false, d58) | d51 => (false, d59) | d52 => (false, d60) | d53 => (false, d61) | d54 => (false, d62) | d55 => (false, d63) | d56 => (true, d0) | d57 => (true, d1) | d58 => (true, d2) | d59 => (true, d3) | d60 => (true, d4) | d61 => (true, d5) | d62 => (true, d6) | d63 => (true, d7) end
 | d9 => match b with | d0 => (false, d9) | d1 => (false, d10) | d2 => (false, d11) | d3 => (false, d12) | d4 => (false, d13) | d5 => (false, d14) | d6 => (false, d15) | d7 => (false, d16) | d8 => (false, d17) | d9 => (false, d18) | d10 => (false, d19) | d11 => (false, d20) | d12 => (false, d21) | d13 => (false, d22) | d14 => (false, d23) | d15 => (false, d24) | d16 => (false, d25) | d17 => (false, d26) | d18 => (false, d27) | d19 => (false, d28) | d20 => (false, d29) | d21 => (false, d30) | d22 => (false, d31) | d23 => (false, d32) | d24 => (false, d33) | d25 => (false, d34) | d26 => (false, d35) | d27 => (false, d36) | d28 => (false, d37) | d29 => (false, d38) | d30 => (false, d39) | d31 => (false, d40) | d32 => (false, d41) | d33 => (false, d42) | d34 => (false, d43) | d35 => (false, d44) | d36 => (false, d45) | d37 => (false, d46) | d38 => (false, d47) | d39 => (false, d48) | d40 => (false, d49) | d41 => (false, d50) | d42 => (false, d51) | d43 => (false, d52) | d44 => (false, d53) | d45 => (false, d54) | d46 => (false, d55) | d47 => (false, d56) | d48 => (false, d57) | d49 => (false, d58) | d50 => (false, d59) | d51 => (false, d60) | d52 => (false, d61) | d53 => (false, d62) | d54 => (false, d63) | d55 => (true, d0) | d56 => (true, d1) | d57 => (true, d2) | d58 => (true, d3) | d59 => (true, d4) | d60 => (true, d5) | d61 => (true, d6) | d62 => (true, d7) | d63 => (true, d8) end
 | d10 => match b with | d0 => (false, d10) | d1 => (false, d11) | d2 => (false, d12) | d3 => (false, d13) | d4 => (false, d14) | d5 => (false, d15) | d6 => (false, d16) | d7 => (false, d17) | d8 => (false, d18) | d9 => (false, d19) | d10 => (false, d20) | d11 => (false, d21) | d12 => (false, d22) | d13 => (false, d23) | d14 => (false, d24) | d15 => (false, d25) | d16 => (false, d26) | d17 => (false, d27) | d18 => (false, d28) | d19 => (false, d29) | d20 => (false, d30) | d21 => (false, d31) | d22 => (false, d32) | d23 => (false, d33) | d24 => (false, d34) | d25 => (false, d35) | d26 => (false, d36) | d27 => (false, d37) | d28 => (false, d38) | d29 => (false, d39) | d30 => (false, d40) | d31 => (false, d41) | d32 => (false, d42) | d33 => (false, d43) | d34 => (false, d44) | d35 => (false, d45) | d36 => (false, d46) | d37 => (false, d47) | d38 => (false, d48) | d39 => (false, d49) | d40 => (false, d50) | d41 => (false, d51) | d42 => (false, d52) | d43 => (false, d53) | d44 => (false, d54) | d45 => (false, d55) | d46 => (false, d56) | d47 => (false, d57) | d48 => (false, d58) | d49 => (false, d59) | d50 => (false, d60) | d51 => (false, d61) | d52 => (false, d62) | d53 => (false, d63) | d54 => (true, d0) | d55 => (true, d1) | d56 => (true, d2) | d57 => (true, d3) | d58 => (true, d4) | d59 => (true, d5) | d60 => (true, d6) | d61 => (true, d7) | d62 => (true, d8) | d63 => (true, d9) end
 | d11 => match b with | d0 => (false, d11) | d1 => (false, d12) | d2 => (false, d13) | d3 => (false, d14) | d4 => (false, d15) | d5 => (false, d16) | d6 => (false, d17) | d7 => (false, d18) | d8 => (false, d19) | d9 => (false, d20) | d10 => (false, d21) | d11 => (false, d22) | d12 => (false, d23) | d13 => (false, d24) | d14 => (false, d25) | d15 => (false, d26) | d16 => (false, d27) | d17 => (false, d28) | d18 => (false, d29) | d19 => (false, d30) | d20 => (false, d31) | d21 => (false, d32) | d22 => (false, d33) | d23 => (false, d34) | d24 => (false, d35) | d25 => (false, d36) | d26 => (false, d37) | d27 => (false, d38) | d28 => (false, d39) | d29 => (false, d40) | d30 => (false, d41) | d31 => (false, d42) | d32 => (false, d43) | d33 => (false, d44) | d34 => (false, d45) | d35 => (false, d46) | d36 => (false, d47) | d37 => (false, d48) | d38 => (false, d49) | d39 => (false, d50) | d40 => (false, d51) | d41 => (false, d52) | d42 => (false, d53) | d43 => (false, d54) | d44 => (false, d55) | d45 => (false, d56) | d46 => (false, d57) | d47 => (false, d58) | d48 => (false, d59) | d49 => (false, d60) | d50 => (false, d61) | d51 => (false, d62) | d52 => (false, d63) | d53 => (true, d0) | d54 => (true, d1) | d55 => (true, d2) | d56 => (true, d3) | d57 => (true, d4) | d58 => (true, d5) | d59 => (true, d6) | d60 => (true, d7) | d61 => (true, d8) | d62 => (true, d9) | d63 => (true, d10) end
 | d12 => match b with | d0 => (false, d12) | d1 => (false, d13) | d2 => (false, d14) | d3 => (false, d15) | d4 => (false, d16) | d5 => (false, d17) | d6 => (false, d18) | d7 => (false, d19) | d8 => (false, d20) | d9 => (false, d21) | d10 => (false, d22) | d11 => (false, d23) | d12 => (false, d24) | d13 => (false, d25) | d14 => (false, d26) | d15 => (false, d27) | d16 => (false, d28) | d17 => (false, d29) | d18 => (false, d30) | d19 => (false, d31) | d20 => (false, d32) | d21 => (false, d33) | d22 => (false, d34) | d23 => (false, d35) | d24 => (false, d36) | d25 => (false, d37) | d26 => (false, d38) | d27 => (false, d39) | d28 => (false, d40) | d29 => (false, d41) | d30 => (false, d42) | d31 => (false, d43) | d32 => (false, d44) | d33 => (false, d45) | d34 => (false, d46) | d35 => (false, d47) | d36 => (false, d48) | d37 => (false, d49) | d38 => (false, d50) | d39 => (false, d51) | d40 => (false, d52) | d41 => (false, d53) | d42 => (false, d54) | d43 => (false, d55) | d44 => (false, d56) | d45 => (false, d57) | d46 => (false, d58) | d47 => (false, d59) | d48 => (false, d60) | d49 => (false, d61) | d50 => (false, d62) | d51 => (false, d63) | d52 => (true, d0) | d53 => (true, d1) | d54 => (true, d2) | d55 => (true, d3) | d56 => (true, d4) | d57 => (true, d5) | d58 => (true, d6) | d59 => (true, d7) | d60 => (true, d8) | d61 => (true, d9) | d62 => (true, d10) | d63 => (true, d11) end
 | d13 => match b with | d0 => (false, d13) | d1 => (false, d14) | d2 => (false, d15) | d3 => (false, d16) | d4 => (false, d17) | d5 => (false, d18) | d6 => (false, d19) | d7 => (false, d20) | d8 => (false, d21) | d9 => (false, d22) | d10 => (false, d23) | d11 => (false, d24) | d12 => (false, d25) | d13 => (false, d26) | d14 => (false, d27) | d15 => (false, d28) | d16 => (false, d29) | d17 => (false, d30) | d18 => (false, d31) | d19 => (false, d32) | d20 => (false, d33) | d21 => (false, d34) | d22 => (false, d35) | d23 => (false, d36) | d24 => (false, d37) | d25 => (false, d38) | d26 => (false, d39) | d27 => (false, d40) | d28 => (false, d41) | d29 => (false, d42) | d30 => (false, d43) | d31 => (false, d44) | d32 => (false, d45) | d33 => (false, d46) | d34 => (false, d47) | d35 => (false, d48) | d36 => (false, d49) | d37 => (false, d50) | d38 => (false, d51) | d39 => (false, d52) | d40 => (false, d53) | d41 => (false, d54) | d42 => (false, d55) | d43 => (false, d56) | d44 => (false, d57) | d45 => (false, d58) | d46 => (false, d59) | d47 => (false, d60) | d48 => (false, d61) | d49 => (false, d62) | d50 => (false, d63) | d51 => (true, d0) | d52 => (true, d1) | d53 => (true, d2) | d54 => (true, d3) | d55 => (true, d4) | d56 => (true, d5) | d57 => (true, d6) | d58 => (true, d7) | d59 => (true, d8) | d60 => (true, d9) | d61 => (true, d10) | d62 => (true, d11) | d63 => (true, d12) end
 | d14 => match b with | d0 => (false, d14) | d1 => (false, d15) | d2 => (false, d16) | d3 => (false, d17) | d4 => (false, d18) | d5 => (false, d19) | d6 => (false, d20) | d7 => (false, d21) | d8 => (false, d22) | d9 => (false, d23) | d10 => (false, d24) | d11 => (false, d25) | d12 => (false, d26) | d13 => (false, d27) | d14 => (false, d28) | d15 => (false, d29) | d16 => (false, d30) | d17 => (false, d31) | d18 => (false, d32) | d19 => (false, d33) | d20 => (false, d34) | d21 => (false, d35) | d22 => (false, d36) | d23 => (false, d37) | d24 => (false, d38) | d25 => (false, d39) | d26 => (false, d40) | d27 => (false, d41) | d28 => (false, d42) | d29 => (false, d43) | d30 => (false, d44) | d31 => (false, d45) | d32 => (false, d46) | d33 => (false, d47) | d34 => (false, d48) | d35 => (false, d49) | d36 => (false, d50) | d37 => (false, d51) | d38 => (false, d52) | d39 => (false, d53) | d40 => (false, d54) | d41 => (false, d55) | d42 => (false, d56) | d43 => (false, d57) | d44 => (false, d58) | d45 => (false, d59) | d46 => (false, d60) | d47 => (false, d61) | d48 => (false, d62) | d49 => (false, d63) | d50 => (true, d0) | d51 => (true, d1) | d52 => (true, d2) | d53 => (true, d3) | d54 => (true, d4) | d55 => (true, d5) | d56 => (true, d6) | d57 => (true, d7) | d58 => (true, d8) | d59 => (true, d9) | d60 => (true, d10) | d61 => (true, d11) | d62 => (true, d12) | d63 => (true, d13) end
 | d15 => match b with | d0 => (false, d15) | d1 => (false, d16) | d2 => (false, d17) | d3 => (false, d18) | d4 => (false, d19) | d5 => (false, d20) | d6 => (false, d21) | d7 => (false, d22) | d8 => (false, d23) | d9 => (false, d24) | d10 => (false, d25) | d11 => (false, d26) | d12 => (false, d27) | d13 => (false, d28) | d14 => (false, d29) | d15 => (false, d30) | d16 => (false, d31) | d17 => (false, d32) | d18 => (false, d33) | d19 => (false, d34) | d20 => (false, d35) | d21 => (false, d36) | d22 => (false, d37) | d23 => (false, d38) | d24 => (false, d39) | d25 => (false, d40) | d26 => (false, d41) | d27 => (false, d42) | d28 => (false, d43) | d29 => (false, d44) | d30 => (false, d45) | d31 => (false, d46) | d32 => (false, d47) | d33 => (false, d48) | d34 => (false, d49) | d35 => (false, d50) | d36 => (false, d51) | d37 => (false, d52) | d38 => (false, d53) | d39 => (false, d54) | d40 => (false, d55) | d41 => (false, d56) | d42 => (false, d57) | d43 => (false, d58) | d44 => (false, d59) | d45 => (false, d60) | d46 => (false, d61) | d47 => (false, d62) | d48 => (false, d63) | d49 => (true, d0) | d50 => (true, d1) | d51 => (true, d2) | d52 => (true, d3) | d53 => (true, d4) | d54 => (true, d5) | d55 => (true, d6) | d56 => (true, d7) | d57 => (true, d8) | d58 => (true, d9) | d59 => (true, d10) | d60 => (true, d11) | d61 => (true, d12) | d62 => (true, d13) | d63 => (true, d14) end
 | d16 => match b with | d0 => (false, d16) | d1 => (false, d17) | d2 => (false, d18) | d3 => (false, d19) | d4 => (false, d20) | d5 => (false, d21) | d6 => (false, d22) | d7 => (false, d23) | d8 => (false, d24) | d9 => (false, d25) | d10 => (false, d26) | d11 => (false, d27) | d12 => (false, d28) | d13 => (false, d29) | d14 => (false, d30) | d15 => (false, d31) | d16 => (false, d32) | d17 => (false, d33) | d18 => (false, d34) | d19 => (false, d35) | d20 => (false, d36) | d21 => (false, d37) | d22 => (false, d38) | d23 => (false, d39) | d24 => (false, d40) | d25 => (false, d41) | d26 => (false, d42) | d27 => (false, d43) | d28 => (false, d44) | d29 => (false, d45) | d30 => (false, d46) | d31 => (false, d47) | d32 => (false, d48) | d33 => (false, d49) | d34 => (false, d50) | d35 => (false, d51) | d36 => (false, d52) | d37 => (false, d53) | d38 => (false, d54) | d39 => (false, d55) | d40 => (false, d56) | d41 => (false, d57) | d42 => (false, d58) | d43 => (false, d59) | d44 => (false, d60) | d45 => (false, d61) | d46 => (false, d62) | d47 => (false, d63) | d48 => (true, d0) | d49 => (true, d1) | d50 => (true, d2) | d51 => (true, d3) | d52 => (true, d4) | d53 => (true, d5) | d54 => (true, d6) | d55 => (true, d7) | d56 => (true, d8) | d57 => (true, d9) | d58 => (true, d10) | d59 => (true, d11) | d60 => (true, d12) | d61 => (true, d13) | d62 => (true, d14) | d63 => (true, d15) end
 | d17 => match b with | d0 => (false, d17) | d1 => (false, d18) | d2 => (false, d19) | d3 => (false, d20) | d4 => (false, d21) | d5 => (false, d22) | d6 => (false, d23) | d7 => (false, d24) | d8 => (false, d25) | d9 => (false, d26) | d10 => (false, d27) | d11 => (false, d28) | d12 => (false, d29) | d13 => (false, d30) | d14 => (false, d31) | d15 => (false, d32) | d16 => (false, d33) | d17 => (false, d34) | d18 => (false, d35) | d19 => (false, d36) | d20 => (false, d37) | d21 => (false, d38) | d22 => (false, d39) | d23 => (false, d40) | d24 => (false, d41) | d25 => (false, d42) | d26 => (false, d43) | d27 => (false, d44) | d28 => (false, d45) | d29 => (false, d46) | d30 => (false, d47) | d31 => (false, d48) | d32 => (false, d49) | d33 => (false, d50) | d34 => (false, d51) | d35 => (false, d52) | d36 => (false, d53) | d37 => (false, d54) | d38 => (false, d55) | d39 => (false, d56) | d40 => (false, d57) | d41 => (false, d58) | d42 => (false, d59) | d43 => (false, d60) | d44 => (false, d61) | d45 => (false, d62) | d46 => (false, d63) | d47 => (true, d0) | d48 => (true, d1) | d49 => (true, d2) | d50 => (true, d3) | d51 => (true, d4) | d52 => (true, d5) | d53 => (true, d6) | d54 => (true, d7) | d55 => (true, d8) | d56 => (true, d9) | d57 => (true, d10) | d58 => (true, d11) | d59 => (true, d12) | d60 => (true, d13) | d61 => (true, d14) | d62 => (true, d15) | d63 => (true, d16) end
 | d18 => match b with | d0 => (false, d18) | d1 => (false, d19) | d2 => (false, d20) | d3 => (false, d21) | d4 => (false, d22) | d5 => (false, d23) | d6 => (false, d24) | d7 => (false, d25) | d8 => (false, d26) | d9 => (false, d27) | d10 => (false, d28) | d11 => (false, d29) | d12 => (false, d30) | d13 => (false, d31) | d14 => (false, d32) | d15 => (false, d33) | d16 => (false, d34) | d17 => (false, d35) | d18 => (false, d36) | d19 => (false, d37) | d20 => (false, d38) | d21 => (false, d39) | d22 => (false, d40) | d23 => (false, d41) | d24 => (false, d42) | d25 => (false, d43) | d26 => (false, d44) | d27 => (false, d45) | d28 => (false, d46) | d29 => (false, d47) | d30 => (false, d48) | d31 => (false, d49) | d32 => (false, d50) | d33 => (false, d51) | d34 => (false, d52) | d35 => (false, d53) | d36 => (false, d54) | d37 => (false, d55) | d38 => (false, d56) | d39 => (false, d57) | d40 => (false, d58) | d41 => (false, d59) | d42 => (false, d60) | d43 => (false, d61) | d44 => (false, d62) | d45 => (false, d63) | d46 => (true, d0) | d47 => (true, d1) | d48 => (true, d2) | d49 => (true, d3) | d50 => (true, d4) | d51 => (true, d5) | d52 => (true, d6) | d53 => (true, d7) | d54 => (true, d8) | d55 => (true, d9) | d56 => (true, d10) | d57 => (true, d11) | d58 => (true, d12) | d59 => (true, d13) | d60 => (true, d14) | d61 => (true, d15) | d62 => (true, d16) | d63 => (true, d17) end
 | d19 => match b with | d0 => (false, d19) | d1 => (false, d20) | d2 => (false, d21) | d3 => (false, d22) | d4 => (false, d23) | d5 => (false, d24) | d6 => (false, d25) | d7 => (false, d26) | d8 => (false, d27) | d9 => (false, d28) | d10 => (false, d29) | d11 => (false, d30) | d12 => (false, d31) | d13 => (false, d32) | d14 => (false, d33) | d15 => (false, d34) | d16 => (false, d35) | d17 => (false, d36) | d18 => (false, d37) | d19 => (false, d38) | d20 => (false, d39) | d21 => (false, d40) | d22 => (false, d41) | d23 => (false, d42) | d24 => (false, d43) | d25 => (false, d44) | d26 => (false, d45) | d27 => (false, d46) | d28 => (false, d47) | d29 => (false, d48) | d30 => (false, d49) | d31 => (false, d50) | d32 => (false, d51) | d33 => (false, d52) | d34 => (false, d53) | d35 => (false, d54) | d36 => (false, d55) | d37 => (false, d56) | d38 => (false, d57) | d39 => (false, d58) | d40 => (false, d59) | d41 => (false, d60) | d42 => (false, d61) | d43 => (false, d62) | d44 => (false, d63) | d45 => (true, d0) | d46 => (true, d1) | d47 => (true, d2) | d48 => (true, d3) | d49 => (true, d4) | d50 => (true, d5) | d51 => (true, d6) | d52 => (true, d7) | d53 => (true, d8) | d54 => (true, d9) | d55 => (true, d10) | d56 => (true, d11) | d57 => (true, d12) | d58 => (true, d13) | d59 => (true, d14) | d60 => (true, d15) | d61 => (true, d16) | d62 => (true, d17) | d63 => (true, d18) end
 | d20 => match b with | d0 => (false, d20) | d1 => (false, d21) | d2 => (false, d22) | d3 => (false, d23) | d4 => (false, d24) | d5 => (false, d25) | d6 => (false, d26) | d7 => (false, d27) | d8 => (false, d28) | d9 => (false, d29) | d10 => (false, d30) | d11 => (false, d31) | d12 => (false, d32) | d13 => (false, d33) | d14 => (false, d34) | d15 => (false, d35) | d16 => (false, d36) | d17 => (false, d37) | d18 => (false, d38) | d19 => (false, d39) | d20 => (false, d40) | d21 => (false, d41) | d22 => (false, d42) | d23 => (false, d43) | d24 => (false, d44) | d25 => (false, d45) | d26 => (false, d46) | d27 => (false, d47) | d28 => (false, d48) | d29 => (false, d49) | d30 => (false, d50) | d31 => (false, d51) | d32 => (false, d52) | d33 => (false, d53) | d34 => (false, d54) | d35 => (false, d55) | d36 => (false, d56) | d37 => (false, d57) | d38 => (false, d58) | d39 => (false, d59) | d40 => (false, d60) | d41 => (false, d61) | d42 => (false, d62) | d43 => (false, d63) | d44 => (true, d0) | d45 => (true, d1) | d46 => (true, d2) | d47 => (true, d3) | d48 => (true, d4) | d49 => (true, d5) | d50 => (true, d6) | d51 => (true, d7) | d52 => (true, d8) | d53 => (true, d9) | d54 => (true, d10) | d55 => (true, d11) | d56 => (true, d12) | d57 => (true, d13) | d58 => (true, d14) | d59 => (true, d15) | d60 => (true, d16) | d61 => (true, d17) | d62 => (true, d18) | d63 => (true, d19) end
 | d21 => match b with | d0 => (false, d21) | d1 => (false, d22) | d2 => (false, d23) | d3 => (false, d24) | d4 => (false, d25) | d5 => (false, d26) | d6 => (false, d27) | d7 => (false, d28) | d8 => (false, d29) | d9 => (false, d30) | d10 => (false, d31) | d11 => (false, d32) | d12 => (false, d33) | d13 => (false, d34) | d14 => (false, d35) | d15 => (false, d36) | d16 => (false, d37) | d17 => (false, d38) | d18 => (false, d39) | d19 => (false, d40) | d20 => (false, d41) | d21 => (false, d42) | d22 => (false, d43) | d23 => (false, d44) | d24 => (false, d45) | d25 => (false, d46) | d26 => (false, d47) | d27 => (false, d48) | d28 => (false, d49) | d29 => (false, d50) | d30 => (false, d51) | d31 => (false, d52) | d32 => (false, d53) | d33 => (false, d54) | d34 => (false, d55) | d35 => (false, d56) | d36 => (false, d57) | d37 => (false, d58) | d38 => (false, d59) | d39 => (false, d60) | d40 => (false, d61) | d41 => (false, d62) | d42 => (false, d63) | d43 => (true, d0) | d44 => (true, d1) | d45 => (true, d2) | d46 => (true, d3) | d47 => (true, d4) | d48 => (true, d5) | d49 => (true, d6) | d50 => (true, d7) | d51 => (true, d8) | d52 => (true, d9) | d53 => (true, d10) | d54 => (true, d11) | d55 => (true, d12) | d56 => (true, d13) | d57 => (true, d14) | d58 => (true, d15) | d59 => (true, d16) | d60 => (true, d17) | d61 => (true, d18) | d62 => (true, d19) | d63 => (true, d20) end
 | d22 => match b with | d0 => (false, d22) | d1 => (false, d23) | d2 => (false, d24) | d3 => (false, d25) | d4 => (false, d26) | d5 => (false, d27) | d6 => (false, d28) | d7 => (false, d29) | d8 => (false, d30) | d9 => (false, d31) | d10 => (false, d32) | d11 => (false, d33) | d12 => (false, d34) | d13 => (false, d35) | d14 => (false, d36) | d15 => (false, d37) | d16 => (false, d38) | d17 => (false, d39) | d18 => (false, d40) | d19 => (false, d41) | d20 => (false, d42) | d21 => (false, d43) | d22 => (false, d44) | d23 => (false, d45) | d24 => (false, d46) | d25 => (false, d47) | d26 => (false, d48) | d27 => (false, d49) | d28 => (false, d50) | d29 => (false, d51) | d30 => (false, d52) | d31 => (false, d53) | d32 => (false, d54) | d33 => (false, d55) | d34 => (false, d56) | d35 => (false, d57) | d36 => (false, d58) | d37 => (false, d59) | d38 => (false, d60) | d39 => (false, d61) | d40 => (false, d62) | d41 => (false, d63) | d42 => (true, d0) | d43 => (true, d1) | d44 => (true, d2) | d45 => (true, d3) | d46 => (true, d4) | d47 => (true, d5) | d48 => (true, d6) | d49 => (true, d7) | d50 => (true, d8) | d51 => (true, d9) | d52 => (true, d10) | d53 => (true, d11) | d54 => (true, d12) | d55 => (true, d13) | d56 => (true, d14) | d57 => (true, d15) | d58 => (true, d16) | d59 => (true, d17) | d60 => (true, d18) | d61 => (true, d19) | d62 => (true, d20) | d63 => (true, d21) end
 | d23 => match b with | d0 => (false, d23) | d1 => (false, d24) | d2 => (false, d25) | d3 => (false, d26) | d4 => (false, d27) | d5 => (false, d28) | d6 => (false, d29) | d7 => (false, d30) | d8 => (false, d31) | d9 => (false, d32) | d10 => (false, d33) | d11 => (false, d34) | d12 => (false, d35) | d13 => (false, d36) | d14 => (false, d37) | d15 => (false, d38) | d16 => (false, d39) | d17 => (false, d40) | d18 => (false, d41) | d19 => (false, d42) | d20 => (false, d43) | d21 => (false, d44) | d22 => (false, d45) | d23 => (false, d46) | d24 => (false, d47) | d25 => (false, d48) | d26 => (false, d49) | d27 => (false, d50) | d28 => (false, d51) | d29 => (false, d52) | d30 => (false, d53) | d31 => (false, d54) | d32 => (false, d55) | d33 => (false, d56) | d34 => (false, d57) | d35 => (false, d58) | d36 => (false, d59) | d37 => (false, d60) | d38 => (false, d61) | d39 => (false, d62) | d40 => (false, d63) | d41 => (true, d0) | d42 => (true, d1) | d43 => (true, d2) | d44 => (true, d3) | d45 => (true, d4) | d46 => (true, d5) | d47 => (true, d6) | d48 => (true, d7) | d49 => (true, d8) | d50 => (true, d9) | d51 => (true, d10) | d52 => (true, d11) | d53 => (true, d12) | d54 => (true, d13) | d55 => (true, d14) | d56 => (true, d15) | d57 => (true, d16) | d58 => (true, d17) | d59 => (true, d18) | d60 => (true, d19) | d61 => (true, d20) | d62 => (true, d21) | d63 => (true, d22) end
 | d24 => match b with | d0 => (false, d24) | d1 => (false, d25) | d2 => (false, d26) | d3 => (false, d27) | d4 => (false, d28) | d5 => (false, d29) | d6 => (false, d30) | d7 => (false, d31) | d8 => (false, d32) | d9 => (false, d33) | d10 => (false, d34) | d11 => (false, d35) | d12 => (false, d36) | d13 => (false, d37) | d14 => (false, d38) | d15 => (false, d39) | d16 => (false, d40) | d17 => (false, d41) | d18 => (false, d42) | d19 => (false, d43) | d20 => (false, d44) | d21 => (false, d45) | d22 => (false, d46) | d23 => (false, d47) | d24 => (false, d48) | d25 => (false, d49) | d26 => (false, d50) | d27 => (false, d51) | d28 => (false, d52) | d29 => (false, d53) | d30 => (false, d54) | d31 => (false, d55) | d32 => (false, d56) | d33 => (false, d57) | d34 => (false, d58) | d35 => (false, d59) | d36 => (false, d60) | d37 => (false, d61) | d38 => (false, d62) | d39 => (false, d63) | d40 => (true, d0) | d41 => (true, d1) | d42 => (true, d2) | d43 => (true, d3) | d44 => (true, d4) | d45 => (true, d5) | d46 => (true, d6) | d47 => (true, d7) | d48 => (true, d8) | d49 => (true, d9) | d50 => (true, d10) | d51 => (true, d11) | d52 => (true, d12) | d53 => (true, d13) | d54 => (true, d14) | d55 => (true, d15) | d56 => (true, d16) | d57 => (true, d17) | d58 => (true, d18) | d59 => (true, d19) | d60 => (true, d20) | d61 => (true, d21) | d62 => (true, d22) | d63 => (true, d23) end
 | d25 => match b with | d0 => (false, d25) | d1 => (false, d26) | d2 => (false, d27) | d3 => (false, d28) | d4 => (false, d29) | d5 => (false, d30) | d6 => (false, d31) | d7 => (false, d32) | d8 => (false, d33) | d9 => (false, d34) | d10 => (false, d35) | d11 => (false, d36) | d12 => (false, d37) | d13 => (false, d38) | d14 => (false, d39) | d15 => (false, d40) | d16 => (false, d41) | d17 => (false, d42) | d18 => (false, d43) | d19 => (false, d44) | d20 => (false, d45) | d21 => (false, d46) | d22 => (false, d47) | d23 => (false, d48) | d24 => (false, d49) | d25 => (false, d50) | d26 => (false, d51) | d27 => (false, d52) | d28 => (false, d53) | d29 => (false, d54) | d30 => (false, d55) | d31 => (false, d56) | d32 => (false, d57) | d33 => (false, d58) | d34 => (false, d59) | d35 => (false, d60) | d36 => (false, d61) | d37 => (false, d62) | d38 => (false, d63) | d39 => (true, d0) | d40 => (true, d1) | d41 => (true, d2) | d42 => (true, d3) | d43 => (true, d4) | d44 => (true, d5) | d45 => (true, d6) | d46 => (true, d7) | d47 => (true, d8) | d48 => (true, d9) | d49 => (true, d10) | d50 => (true, d11) | d51 => (true, d12) | d52 => (true, d13) | d53 => (true, d14) | d54 => (true, d15) | d55 => (true, d16) | d56 => (true, d17) | d57 => (true, d18) | d58 => (true, d19) | d59 => (true, d20) | d60 => (true, d21) | d61 => (true, d22) | d62 => (true, d23) | d63 => (true, d24) end
 | d26 => match b with | d0 => (false, d26) | d1 => (false, d27) | d2 => (false, d28) | d3 => (false, d29) | d4 => (false, d30) | d5 => (false, d31) | d6 => (false, d32) | d7 => (false, d33) | d8 => (false, d34) | d9 => (false, d35) | d10 => (false, d36) | d11 => (false, d37) | d12 => (false, d38) | d13 => (false, d39) | d14 => (false, d40) | d15 => (false, d41) | d16 => (false, d42) | d17 => (false, d43) | d18 => (false, d44) | d19 => (false, d45) | d20 => (false, d46) | d21 => (false, d47) | d22 => (false, d48) | d23 => (false, d49) | d24 => (false, d50) | d25 => (false, d51) | d26 => (false, d52) | d27 => (false, d53) | d28 => (false, d54) | d29 => (false, d55) | d30 => (false, d56) | d31 => (false, d57) | d32 => (false, d58) | d33 => (false, d59) | d34 => (false, d60) | d35 => (false, d61) | d36 => (false, d62) | d37 => (false, d63) | d38 => (true, d0) | d39 => (true, d1) | d40 => (true, d2) | d41 => (true, d3) | d42 => (true, d4) | d43 => (true, d5) | d44 => (true, d6) | d45 => (true, d7) | d46 => (true, d8) | d47 => (true, d9) | d48 => (true, d10) | d49 => (true, d11) | d50 => (true, d12) | d51 => (true, d13) | d52 => (true, d14) | d53 => (true, d15) | d54 => (true, d16) | d55 => (true, d17) | d56 => (true, d18) | d57 => (true, d19) | d58 => (true, d20) | d59 => (true, d21) | d60 => (true, d22) | d61 => (true, d23) | d62 => (true, d24) | d63 => (true, d25) end
 | d27 => match b with | d0 => (false, d27) | d1 => (false, d28) | d2 => (false, d29) | d3 => (false, d30) | d4 => (false, d31) | d5 => (false, d32) | d6 => (false, d33) | d7 => (false, d34) | d8 => (false, d35) | d9 => (false, d36) | d10 => (false, d37) | d11 => (false, d38) | d12 => (false, d39) | d13 => (false, d40) | d14 => (false, d41) | d15 => (false, d42) | d16 => (false, d43) | d17 => (false, d44) | d18 => (false, d45) | d19 => (false, d46) | d20 => (false, d47) | d21 => (false, d48) | d22 => (false, d49) | d23 => (false, d50) | d24 => (false, d51) | d25 => (false, d52) | d26 => (false, d53) | d27 => (false, d54) | d28 => (false, d55) | d29 => (false, d56) | d30 => (false, d57) | d31 => (false, d58) | d32 => (false, d59) | d33 => (false, d60) | d34 => (false, d61) | d35 => (false, d62) | d36 => (false, d63) | d37 => (true, d0) | d38 => (true, d1) | d39 => (true, d2) | d40 => (true, d3) | d41 => (true, d4) | d42 => (true, d5) | d43 => (true, d6) | d44 => (true, d7) | d45 => (true, d8) | d46 => (true, d9) | d47 => (true, d10) | d48 => (true, d11) | d49 => (true, d12) | d50 => (true, d13) | d51 => (true, d14) | d52 => (true, d15) | d53 => (true, d16) | d54 => (true, d17) | d55 => (true, d18) | d56 => (true, d19) | d57 => (true, d20) | d58 => (true, d21) | d59 => (true, d22) | d60 => (true, d23) | d61 => (true, d24) | d62 => (true, d25) | d63 => (true, d26) end
 | d28 => match b with | d0 => (false, d28) | d1 => (false, d29) | d2 => (false, d30) | d3 => (false, d31) | d4 => (false, d32) | d5 => (false, d33) | d6 => (false, d34) | d7 => (false, d35) | d8 => (false, d36) | d9 => (false, d37) | d10 => (false, d38) | d11 => (false, d39) | d12 => (false, d40) | d13 => (false, d41) | d14 => (false, d42) | d15 => (false, d43) | d16 => (false, d44) | d17 => (false, d45) | d18 => (false, d46) | d19 => (false, d47) | d20 => (false, d48) | d21 => (false, d49) | d22 => (false, d50) | d23 => (false, d51) | d24 => (false, d52) | d25 => (false, d53) | d26 => (false, d54) | d27 => (false, d55) | d28 => (false, d56) | d29 => (false, d57) | d30 => (false, d58) | d31 => (false, d59) | d32 => (false, d60) | d33 => (false, d61) | d34 => (false, d62) | d35 => (false, d63) | d36 => (true, d0) | d37 => (true, d1) | d38 => (true, d2) | d39 => (true, d3) | d40 => (true, d4) | d41 => (true, d5) | d42 => (true, d6) | d43 => (true, d7) | d44 => (true, d8) | d45 => (true, d9) | d46 => (true, d10) | d47 => (true, d11) | d48 => (true, d12) | d49 => (true, d13) | d50 => (true, d14) | d51 => (true, d15) | d52 => (true, d16) | d53 => (true, d17) | d54 => (true, d18) | d55 => (true, d19) | d56 => (true, d20) | d57 => (true, d21) | d58 => (true, d22) | d59 => (true, d23) | d60 => (true, d24) | d61 => (true, d25) | d62 => (true, d26) | d63 => (true, d27) end
 | d29 => match b with | d0 => (false, d29) | d1 => (false, d30) | d2 => (false, d31) | d3 => (false, d32) | d4 => (false, d33) | d5 => (false, d34) | d6 => (false, d35) | d7 => (false, d36) | d8 => (false, d37) | d9 => (false, d38) | d10 => (false, d39) | d11 => (false, d40) | d12 => (false, d41) | d13 => (false, d42) | d14 => (false, d43) | d15 => (false, d44) | d16 => (false, d45) | d17 => (false, d46) | d18 => (false, d47) | d19 => (false, d48) | d20 => (false, d49) | d21 => (false, d50) | d22 => (false, d51) | d23 => (false, d52) | d24 => (false, d53) | d25 => (false, d54) | d26 => (false, d55) | d27 => (false, d56) | d28 => (false, d57) | d29 => (false, d58) | d30 => (false, d59) | d31 => (false, d60) | d32 => (false, d61) | d33 => (false, d62) | d34 => (false, d63) | d35 => (true, d0) | d36 => (true, d1) | d37 => (true, d2) | d38 => (true, d3) | d39 => (true, d4) | d40 => (true, d5) | d41 => (true, d6) | d42 => (true, d7) | d43 => (true, d8) | d44 => (true, d9) | d45 => (true, d10) | d46 => (true, d11) | d47 => (true, d12) | d48 => (true, d13) | d49 => (true, d14) | d50 => (true, d15) | d51 => (true, d16) | d52 => (true, d17) | d53 => (true, d18) | d54 => (true, d19) | d55 => (true, d20) | d56 => (true, d21) | d57 => (true, d22) | d58 => (true, d23) | d59 => (true, d24) | d60 => (true, d25) | d61 => (true, d26) | d62 => (true, d27) | d63 => (true, d28) end
 | d30 => match b with | d0 => (false, d30) | d1 => (false, d31) | d2 => (false, d32) | d3 => (false, d33) | d4 => (false, d34) | d5 => (false, d35) | d6 => (false, d36) | d7 => (false, d37) | d8 => (false, d38) | d9 => (false, d39) | d10 => (false, d40) | d11 => (false, d41) | d12 => (false, d42) | d13 => (false, d43) | d14 => (false, d44) | d15 => (false, d45) | d16 => (false, d46) | d17 => (false, d47) | d18 => (false, d48) | d19 => (false, d49) | d20 => (false, d50) | d21 => (false, d51) | d22 => (false, d52) | d23 => (false, d53) | d24 => (false, d54) | d25 => (false, d55) | d26 => (false, d56) | d27 => (false, d57) | d28 => (false, d58) | d29 => (false, d59) | d30 => (false, d60) | d31 => (false, d61) | d32 => (false, d62) | d33 => (false, d63) | d34 => (true, d0) | d35 => (true, d1) | d36 => (true, d2) | d37 => (true, d3) | d38 => (true, d4) | d39 => (true, d5) | d40 => (true, d6) | d41 => (true, d7) | d42 => (true, d8) | d43 => (true, d9) | d44 => (true, d10) | d45 => (true, d11) | d46 => (true, d12) | d47 => (true, d13) | d48 => (true, d14) | d49 => (true, d15) | d50 => (true, d16) | d51 => (true, d17) | d52 => (true, d18) | d53 => (true, d19) | d54 => (true, d20) | d55 => (true, d21) | d56 => (true, d22) | d57 => (true, d23) | d58 => (true, d24) | d59 => (true, d25) | d60 => (true, d26) | d61 => (true, d27) | d62 => (true, d28) | d63 => (true, d29) end
 | d31 => match b with | d0 => (false, d31) | d1 => (false, d32) | d2 => (false, d33) | d3 => (false, d34) | d4 => (false, d35) | d5 => (false, d36) | d6 => (false, d37) | d7 => (false, d38) | d8 => (false, d39) | d9 => (false, d40) | d10 => (false, d41) | d11 => (false, d42) | d12 => (false, d43) | d13 => (false, d44) | d14 => (false, d45) | d15 => (false, d46) | d16 => (false, d47) | d17 => (false, d48) | d18 => (false, d49) | d19 => (false, d50) | d20 => (false, d51) | d21 => (false, d52) | d22 => (false, d53) | d23 => (false, d54) | d24 => (false, d55) | d25 => (false, d56) | d26 => (false, d57) | d27 => (false, d58) | d28 => (false, d59) | d29 => (false, d60) | d30 => (false, d61) | d31 => (false, d62) | d32 => (false, d63) | d33 => (true, d0) | d34 => (true, d1) | d35 => (true, d2) | d36 => (true, d3) | d37 => (true, d4) | d38 => (true, d5) | d39 => (true, d6) | d40 => (true, d7) | d41 => (true, d8) | d42 => (true, d9) | d43 => (true, d10) | d44 => (true, d11) | d45 => (true, d12) | d46 => (true, d13) | d47 => (true, d14) | d48 => (true, d15) | d49 => (true, d16) | d50 => (true, d17) | d51 => (true, d18) | d52 => (true, d19) | d53 => (true, d20) | d54 => (true, d21) | d55 => (true, d22) | d56 => (true, d23) | d57 => (true, d24) | d58 => (true, d25) | d59 => (true, d26) | d60 => (true, d27) | d61 => (true, d28) | d62 => (true, d29) | d63 => (true, d30) end
 | d32 => match b with | d0 => (false, d32) | d1 => (false, d33) | d2 => (false, d34) | d3 => (false, d35) | d4 => (false, d36) | d5 => (false, d37) | d6 => (false, d38) | d7 => (false, d39) | d8 => (false, d40) | d9 => (false, d41) | d10 => (false, d42) | d11 => (false, d43) | d12 => (false, d44) | d13 => (false, d45) | d14 => (false, d46) | d15 => (false, d47) | d16 => (false, d48) | d17 => (false, d49) | d18 => (false, d50) | d19 => (false, d51) | d20 => (false, d52) | d21 => (false, d53) | d22 => (false, d54) | d23 => (false, d55) | d24 => (false, d56) | d25 => (false, d57) | d26 => (false, d58) | d27 => (false, d59) | d28 => (false, d60) | d29 => (false, d61) | d30 => (false, d62) | d31 => (false, d63) | d32 => (true, d0) | d33 => (true, d1) | d34 => (true, d2) | d35 => (true, d3) | d36 => (true, d4) | d37 => (true, d5) | d38 => (true, d6) | d39 => (true, d7) | d40 => (true, d8) | d41 => (true, d9) | d42 => (true, d10) | d43 => (true, d11) | d44 => (true, d12) | d45 => (true, d13) | d46 => (true, d14) | d47 => (true, d15) | d48 => (true, d16) | d49 => (true, d17) | d50 => (true, d18) | d51 => (true, d19) | d52 => (true, d20) | d53 => (true, d21) | d54 => (true, d22) | d55 => (true, d23) | d56 => (true, d24) | d57 => (true, d25) | d58 => (true, d26) | d59 => (true, d27) | d60 => (true, d28) | d61 => (true, d29) | d62 => (true, d30) | d63 => (true, d31) end
 | d33 => match b with | d0 => (false, d33) | d1 => (false, d34) | d2 => (false, d35) | d3 => (false, d36) | d4 => (false, d37) | d5 => (false, d38) | d6 => (false, d39) | d7 => (false, d40) | d8 => (false, d41) | d9 => (false, d42) | d10 => (false, d43) | d11 => (false, d44) | d12 => (false, d45) | d13 => (false, d46) | d14 => (false, d47) | d15 => (false, d48) | d16 => (false, d49) | d17 => (false, d50) | d18 => (false, d51) | d19 => (false, d52) | d20 => (false, d53) | d21 => (false, d54) | d22 => (false, d55) | d23 => (false, d56) | d24 => (false, d57) | d25 => (false, d58) | d26 => (false, d59) | d27 => (false, d60) | d28 => (false, d61) | d29 => (false, d62) | d30 => (false, d63) | d31 => (true, d0) | d32 => (true, d1) | d33 => (true, d2) | d34 => (true, d3) | d35 => (true, d4) | d36 => (true, d5) | d37 => (true, d6) | d38 => (true, d7) | d39 => (true, d8) | d40 => (true, d9) | d41 => (true, d10) | d42 => (true, d11) | d43 => (true, d12) | d44 => (true, d13) | d45 => (true, d14) | d46 => (true, d15) | d47 => (true, d16) | d48 => (true, d17) | d49 => (true, d18) | d50 => (true, d19) | d51 => (true, d20) | d52 => (true, d21) | d53 => (true, d22) | d54 => (true, d23) | d55 => (true, d24) | d56 => (true, d25) | d57 => (true, d26) | d58 => (true, d27) | d59 => (true, d28) | d60 => (true, d29) | d61 => (true, d30) | d62 => (true, d31) | d63 => (true, d32) end
 | d34 => match b with | d0 => (false, d34) | d1 => (false, d35) | d2 => (false, d36) | d3 => (false, d37) | d4 => (false, d38) | d5 => (false, d39) | d6 => (false, d40) | d7 => (false, d41) | d8 => (false, d42) | d9 => (false, d43) | d10 => (false, d44) | d11 => (false, d45) | d12 => (false, d46) | d13 => (false, d47) | d14 => (false, d48) | d15 => (false, d49) | d16 => (false, d50) | d17 => (false, d51) | d18 => (false, d52) | d19 => (false, d53) | d20 => (false, d54) | d21 => (false, d55) | d22 => (false, d56) | d23 => (false, d57) | d24 => (false, d58) | d25 => (false, d59) | d26 => (false, d60) | d27 => (false, d61) | d28 => (false, d62) | d29 => (false, d63) | d30 => (true, d0) | d31 => (true, d1) | d32 => (true, d2) | d33 => (true, d3) | d34 => (true, d4) | d35 => (true, d5) | d36 => (true, d6) | d37 => (true, d7) | d38 => (true, d8) | d39 => (true, d9) | d40 => (true, d10) | d41 => (true, d11) | d42 => (true, d12) | d43 => (true, d13) | d44 => (true, d14) | d45 => (true, d15) | d46 => (true, d16) | d47 => (true, d17) | d48 => (true, d18) | d49 => (true, d19) | d50 => (true, d20) | d51 => (true, d21) | d52 => (true, d22) | d53 => (true, d23) | d54 => (true, d24) | d55 => (true, d25) | d56 => (true, d26) | d57 => (true, d27) | d58 => (true, d28) | d59 => (true, d29) | d60 => (true, d30) | d61 => (true, d31) | d62 => (true, d32) | d63 => (true, d33) end
 | d35 => match b with | d0 => (false, d35) | d1 => (false, d36) | d2 => (false, d37) | d3 => (false, d38) | d4 => (false, d39) | d5 => (false, d40) | d6 => (false, d41) | d7 => (false, d42) | d8 => (false, d43) | d9 => (false, d44) | d10 => (false, d45) | d11 => (false, d46) | d12 => (false, d47) | d13 => (false, d48) | d14 => (false, d49) | d15 => (false, d50) | d16 => (false, d51) | d17 => (false, d52) | d18 => (false, d53) | d19 => (false, d54) | d20 => (false, d55) | d21 => (false, d56) | d22 => (false, d57) | d23 => (false, d58) | d24 => (false, d59) | d25 => (false, d60) | d26 => (false, d61) | d27 => (false, d62) | d28 => (false, d63) | d29 => (true, d0) | d30 => (true, d1) | d31 => (true, d2) | d32 => (true, d3) | d33 => (true, d4) | d34 => (true, d5) | d35 => (true, d6) | d36 => (true, d7) | d37 => (true, d8) | d38 => (true, d9) | d39 => (true, d10) | d40 => (true, d11) | d41 => (true, d12) | d42 => (true, d13) | d43 => (true, d14) | d44 => (true, d15) | d45 => (true, d16) | d46 => (true, d17) | d47 => (true, d18) | d48 => (true, d19) | d49 => (true, d20) | d50 => (true, d21) | d51 => (true, d22) | d52 => (true, d23) | d53 => (true, d24) | d54 => (true, d25) | d55 => (true, d26) | d56 => (true, d27) | d57 => (true, d28) | d58 => (true, d29) | d59 => (true, d30) | d60 => (true, d31) | d61 => (true, d32) | d62 => (true, d33) | d63 => (true, d34) end
 | d36 => match b with | d0 => (false, d36) | d1 => (false, d37) | d2 => (false, d38) | d3 => (false, d39) | d4 => (false, d40) | d5 => (false, d41) | d6 => (false, d42) | d7 => (false, d43) | d8 => (false, d44) | d9 => (false, d45) | d10 => (false, d46) | d11 => (false, d47) | d12 => (false, d48) | d13 => (false, d49) | d14 => (false, d50) | d15 => (false, d51) | d16 => (false, d52) | d17 => (false, d53) | d18 => (false, d54) | d19 => (false, d55) | d20 => (false, d56) | d21 => (false, d57) | d22 => (false, d58) | d23 => (false, d59) | d24 => (false, d60) | d25 => (false, d61) | d26 => (false, d62) | d27 => (false, d63) | d28 => (true, d0) | d29 => (true, d1) | d30 => (true, d2) | d31 => (true, d3) | d32 => (true, d4) | d33 => (true, d5) | d34 => (true, d6) | d35 => (true, d7) | d36 => (true, d8) | d37 => (true, d9) | d38 => (true, d10) | d39 => (true, d11) | d40 => (true, d12) | d41 => (true, d13) | d42 => (true, d14) | d43 => (true, d15) | d44 => (true, d16) | d45 => (true, d17) | d46 => (true, d18) | d47 => (true, d19) | d48 => (true, d20) | d49 => (true, d21) | d50 => (true, d22) | d51 => (true, d23) | d52 => (true, d24) | d53 => (true, d25) | d54 => (true, d26) | d55 => (true, d27) | d56 => (true, d28) | d57 => (true, d29) | d58 => (true, d30) | d59 => (true, d31) | d60 => (true, d32) | d61 => (true, d33) | d62 => (true, d34) | d63 => (true, d35) end
 | d37 => match b with | d0 => (false, d37) | d1 => (false, d38) | d2 => (false, d39) | d3 => (false, d40) | d4 => (false, d41) | d5 => (false, d42) | d6 => (false, d43) | d7 => (false, d44) | d8 => (false, d45) | d9 => (false, d46) | d10 => (false, d47) | d11 => (false, d48) | d12 => (false, d49) | d13 => (false, d50) | d14 => (false, d51) | d15 => (false, d52) | d16 => (false, d53) | d17 => (false, d54) | d18 => (false, d55) | d19 => (false, d56) | d20 => (false, d57) | d21 => (false, d58) | d22 => (false, d59) | d23 => (false, d60) | d24 => (false, d61) | d25 => (false, d62) | d26 => (false, d63) | d27 => (true, d0) | d28 => (true, d1) | d29 => (true, d2) | d30 => (true, d3) | d31 => (true, d4) | d32 => (true, d5) | d33 => (true, d6) | d34 => (true, d7) | d35 => (true, d8) | d36 => (true, d9) | d37 => (true, d10) | d38 => (true, d11) | d39 => (true, d12) | d40 => (true, d13) | d41 => (true, d14) | d42 => (true, d15) | d43 => (true, d16) | d44 => (true, d17) | d45 => (true, d18) | d46 => (true, d19) | d47 => (true, d20) | d48 => (true, d21) | d49 => (true, d22) | d50 => (true, d23) | d51 => (true, d24) | d52 => (true, d25) | d53 => (true, d26) | d54 => (true, d27) | d55 => (true, d28) | d56 => (true, d29) | d57 => (true, d30) | d58 => (true, d31) | d59 => (true, d32) | d60 => (true, d33) | d61 => (true, d34) | d62 => (true, d35) | d63 => (true, d36) end
 | d38 => match b with | d0 => (false, d38) | d1 => (false, d39) | d2 => (false, d40) | d3 => (false, d41) | d4 => (false, d42) | d5 => (false, d43) | d6 => (false, d44) | d7 => (false, d45) | d8 => (false, d46) | d9 => (false, d47) | d10 => (false, d48) | d11 => (false, d49) | d12 => (false, d50) | d13 => (false, d51) | d14 => (false, d52) | d15 => (false, d53) | d16 => (false, d54) | d17 => (false, d55) | d18 => (false, d56) | d19 => (false, d57) | d20 => (false, d58) | d21 => (false, d59) | d22 => (false, d60) | d23 => (false, d61) | d24 => (false, d62) | d25 => (false, d63) | d26 => (true, d0) | d27 => (true, d1) | d28 => (true, d2) | d29 => (true, d3) | d30 => (true, d4) | d31 => (true, d5) | d32 => (true, d6) | d33 => (true, d7) | d34 => (true, d8) | d35 => (true, d9) | d36 => (true, d10) | d37 => (true, d11) | d38 => (true, d12) | d39 => (true, d13) | d40 => (true, d14) | d41 => (true, d15) | d42 => (true, d16) | d43 => (true, d17) | d44 => (true, d18) | d45 => (true, d19) | d46 => (true, d20) | d47 => (true, d21) | d48 => (true, d22) | d49 => (true, d23) | d50 => (true, d24) | d51 => (true, d25) | d52 => (true, d26) | d53 => (true, d27) | d54 => (true, d28) | d55 => (true, d29) | d56 => (true, d30) | d57 => (true, d31) | d58 => (true, d32) | d59 => (true, d33) | d60 => (true, d34) | d61 => (true, d35) | d62 => (true, d36) | d63 => (true, d37) end
 | d39 => match b with | d0 => (false, d39) | d1 => (false, d40) | d2 => (false, d41) | d3 => (false, d42) | d4 => (false, d43) | d5 => (false, d44) | d6 => (false, d45) | d7 => (false, d46) | d8 => (false, d47) | d9 => (false, d48) | d10 => (false, d49) | d11 => (false, d50) | d12 => (false, d51) | d13 => (false, d52) | d14 => (false, d53) | d15 => (false, d54) | d16 => (false, d55) | d17 => (false, d56) | d18 => (false, d57) | d19 => (false, d58) | d20 => (false, d59) | d21 => (false, d60) | d22 => (false, d61) | d23 => (false, d62) | d24 => (false, d63) | d25 => (true, d0) | d26 => (true, d1) | d27 => (true, d2) | d28 => (true, d3) | d29 => (true, d4) | d30 => (true, d5) | d31 => (true, d6) | d32 => (true, d7) | d33 => (true, d8) | d34 => (true, d9) | d35 => (true, d10) | d36 => (true, d11) | d37 => (true, d12) | d38 => (true, d13) | d39 => (true, d14) | d40 => (true, d15) | d41 => (true, d16) | d42 => (true, d17) | d43 => (true, d18) | d44 => (true, d19) | d45 => (true, d20) | d46 => (true, d21) | d47 => (true, d22) | d48 => (true, d23) | d49 => (true, d24) | d50 => (true, d25) | d51 => (true, d26) | d52 => (true, d27) | d53 => (true, d28) | d54 => (true, d29) | d55 => (true, d30) | d56 => (true, d31) | d57 => (true, d32) | d58 => (true, d33) | d59 => (true, d34) | d60 => (true, d35) | d61 => (true, d36) | d62 => (true, d37) | d63 => (true, d38) end
 | d40 => match b with | d0 => (false, d40) | d1 => (false, d41) | d2 => (false, d42) | d3 => (false, d43) | d4 => (false, d44) | d5 => (false, d45) | d6 => (false, d46) | d7 => (false, d47) | d8 => (false, d48) | d9 => (false, d49) | d10 => (false, d50) | d11 => (false, d51) | d12 => (false, d52) | d13 => (false, d53) | d14 => (false, d54) | d15 => (false, d55) | d16 => (false, d56) | d17 => (false, d57) | d18 => (false, d58) | d19 => (false, d59) | d20 => (false, d60) | d21 => (false, d61) | d22 => (false, d62) | d23 => (false, d63) | d24 => (true, d0) | d25 => (true, d1) | d26 => (true, d2) | d27 => (true, d3) | d28 => (true, d4) | d29 => (true, d5) | d30 => (true, d6) | d31 => (true, d7) | d32 => (true, d8) | d33 => (true, d9) | d34 => (true, d10) | d35 => (true, d11) | d36 => (true, d12) | d37 => (true, d13) | d38 => (true, d14) | d39 => (true, d15) | d40 => (true, d16) | d41 => (true, d17) | d42 => (true, d18) | d43 => (true, d19) | d44 => (true, d20) | d45 => (true, d21) | d46 => (true, d22) | d47 => (true, d23) | d48 => (true, d24) | d49 => (true, d25) | d50 => (true, d26) | d51 => (true, d27) | d52 => (true, d28) | d53 => (true, d29) | d54 => (true, d30) | d55 => (true, d31) | d56 => (true, d32) | d57 => (true, d33) | d58 => (true, d34) | d59 => (true, d35) | d60 => (true, d36) | d61 => (true, d37) | d62 => (true, d38) | d63 => (true, d39) end
 | d41 => match b with | d0 => (false, d41) | d1 => (false, d42) | d2 => (false, d43) | d3 => (false, d44) | d4 => (false, d45) | d5 => (false, d46) | d6 => (false, d47) | d7 => (false, d48) | d8 => (false, d49) | d9 => (false, d50) | d10 => (false, d51) | d11 => (false, d52) | d12 => (false, d53) | d13 => (false, d54) | d14 => (false, d55) | d15 => (false, d56) | d16 => (false, d57) | d17 => (false, d58) | d18 => (false, d59) | d19 => (false, d60) | d20 => (false, d61) | d21 => (false, d62) | d22 => (false, d63) | d23 => (true, d0) | d24 => (true, d1) | d25 => (true, d2) | d26 => (true, d3) | d27 => (true, d4) | d28 => (true, d5) | d29 => (true, d6) | d30 => (true, d7) | d31 => (true, d8) | d32 => (true, d9) | d33 => (true, d10) | d34 => (true, d11) | d35 => (true, d12) | d36 => (true, d13) | d37 => (true, d14) | d38 => (true, d15) | d39 => (true, d16) | d40 => (true, d17) | d41 => (true, d18) | d42 => (true, d19) | d43 => (true, d20) | d44 => (true, d21) | d45 => (true, d22) | d46 => (true, d23) | d47 => (true, d24) | d48 => (true, d25) | d49 => (true, d26) | d50 => (true, d27) | d51 => (true, d28) | d52 => (true, d29) | d53 => (true, d30) | d54 => (true, d31) | d55 => (true, d32) | d56 => (true, d33) | d57 => (true, d34) | d58 => (true, d35) | d59 => (true, d36) | d60 => (true, d37) | d61 => (true, d38) | d62 => (true, d39) | d63 => (true, d40) end
 | d42 => match b with | d0 => (false, d42) | d1 => (false, d43) | d2 => (false, d44) | d3 => (false, d45) | d4 => (false, d46) | d5 => (false, d47) | d6 => (false, d48) | d7 => (false, d49) | d8 => (false, d50) | d9 => (false, d51) | d10 => (false, d52) | d11 => (false, d53) | d12 => (false, d54) | d13 => (false, d55) | d14 => (false, d56) | d15 => (false, d57) | d16 => (false, d58) | d17 => (false, d59) | d18 => (false, d60) | d19 => (false, d61) | d20 => (false, d62) | d21 => (false, d63) | d22 => (true, d0) | d23 => (true, d1) | d24 => (true, d2) | d25 => (true, d3) | d26 => (true, d4) | d27 => (true, d5) | d28 => (true, d6) | d29 => (true, d7) | d30 => (true, d8) | d31 => (true, d9) | d32 => (true, d10) | d33 => (true, d11) | d34 => (true, d12) | d35 => (true, d13) | d36 => (true, d14) | d37 => (true, d15) | d38 => (true, d16) | d39 => (true, d17) | d40 => (true, d18) | d41 => (true, d19) | d42 => (true, d20) | d43 => (true, d21) | d44 => (true, d22) | d45 => (true, d23) | d46 => (true, d24) | d47 => (true, d25) | d48 => (true, d26) | d49 => (true, d27) | d50 => (true, d28) | d51 => (true, d29) | d52 => (true, d30) | d53 => (true, d31) | d54 => (true, d32) | d55 => (true, d33) | d56 => (true, d34) | d57 => (true, d35) | d58 => (true, d36) | d59 => (true, d37) | d60 => (true, d38) | d61 => (true, d39) | d62 => (true, d40) | d63 => (true, d41) end
 | d43 => match b with | d0 => (false, d43) | d1 => (false, d44) | d2 => (false, d45) | d3 => (false, d46) | d4 => (false, d47) | d5 => (false, d48) | d6 => (false, d49) | d7 => (false, d50) | d8 => (false, d51) | d9 => (false, d52) | d10 => (false, d53) | d11 => (false, d54) | d12 => (false, d55) | d13 => (false, d56) | d14 => (false, d57) | d15 => (false, d58) | d16 => (false, d59) | d17 => (false, d60) | d18 => (false, d61) | d19 => (false, d62) | d20 => (false, d63) | d21 => (true, d0) | d22 => (true, d1) | d23 => (true, d2) | d24 => (true, d3) | d25 => (true, d4) | d26 => (true, d5) | d27 => (true, d6) | d28 => (true, d7) | d29 => (true, d8) | d30 => (true, d9) | d31 => (true, d10) | d32 => (true, d11) | d33 => (true, d12) | d34 => (true, d13) | d35 => (true, d14) | d36 => (true, d15) | d37 => (true, d16) | d38 => (true, d17) | d39 => (true, d18) | d40 => (true, d19) | d41 => (true, d20) | d42 => (true, d21) | d43 => (true, d22) | d44 => (true, d23) | d45 => (true, d24) | d46 => (true, d25) | d47 => (true, d26) | d48 => (true, d27) | d49 => (true, d28) | d50 => (true, d29) | d51 => (true, d30) | d52 => (true, d31) | d53 => (true, d32) | d54 => (true, d33) | d55 => (true, d34) | d56 => (true, d35) | d57 => (true, d36) | d58 => (true, d37) | d59 => (true, d38) | d60 => (true, d39) | d61 => (true, d40) | d62 => (true, d41) | d63 => (true, d42) end
 | d44 => match b with | d0 => (false, d44) | d1 => (false, d45) | d2 => (false, d46) | d3 => (false, d47) | d4 => (false, d48) | d5 => (false, d49) | d6 => (false, d50) | d7 => (false, d51) | d8 => (false, d52) | d9 => (false, d53) | d10 => (false, d54) | d11 => (false, d55) | d12 => (false, d56) | d13 => (false, d57) | d14 => (false, d58) | d15 => (false, d59) | d16 => (false, d60) | d17 => (false, d61) | d18 => (false, d62) | d19 => (false, d63) | d20 => (true, d0) | d21 => (true, d1) | d22 => (true, d2) | d23 => (true, d3) | d24 => (true, d4) | d25 => (true, d5) | d26 => (true, d6) | d27 => (true, d7) | d28 => (true, d8) | d29 => (true, d9) | d30 => (true, d10) | d31 => (true, d11) | d32 => (true, d12) | d33 => (true, d13) | d34 => (true, d14) | d35 => (true, d15) | d36 => (true, d16) | d37 => (true, d17) | d38 => (true, d18) | d39 => (true, d19) | d40 => (true, d20) | d41 => (true, d21) | d42 => (true, d22) | d43 => (true, d23) | d44 => (true, d24) | d45 => (true, d25) | d46 => (true, d26) | d47 => (true, d27) | d48 => (true, d28) | d49 => (true, d29) | d50 => (true, d30) | d51 => (true, d31) | d52 => (true, d32) | d53 => (true, d33) | d54 => (true, d34) | d55 => (true, d35) | d56 => (true, d36) | d57 => (true, d37) | d58 => (true, d38) | d59 => (true, d39) | d60 => (true, d40) | d61 => (true, d41) | d62 => (true, d42) | d63 => (true, d43) end
 | d45 => match b with | d0 => (false, d45) | d1 => (false, d46) | d2 => (false, d47) | d3 => (false, d48) | d4 => (false, d49) | d5 => (false, d50) | d6 => (false, d51) | d7 => (false, d52) | d8 => (false, d53) | d9 => (false, d54) | d10 => (false, d55) | d11 => (false, d56) | d12 => (false, d57) | d13 => (false, d58) | d14 => (false, d59) | d15 => (false, d60) | d16 => (false, d61) | d17 => (false, d62) | d18 => (false, d63) | d19 => (true, d0) | d20 => (true, d1) | d21 => (true, d2) | d22 => (true, d3) | d23 => (true, d4) | d24 => (true, d5) | d25 => (true, d6) | d26 => (true, d7) | d27 => (true, d8) | d28 => (true, d9) | d29 => (true, d10) | d30 => (true, d11) | d31 => (true, d12) | d32 => (true, d13) | d33 => (true, d14) | d34 => (true, d15) | d35 => (true, d16) | d36 => (true, d17) | d37 => (true, d18) | d38 => (true, d19) | d39 => (true, d20) | d40 => (true, d21) | d41 => (true, d22) | d42 => (true, d23) | d43 => (true, d24) | d44 => (true, d25) | d45 => (true, d26) | d46 => (true, d27) | d47 => (true, d28) | d48 => (true, d29) | d49 => (true, d30) | d50 => (true, d31) | d51 => (true, d32) | d52 => (true, d33) | d53 => (true, d34) | d54 => (true, d35) | d55 => (true, d36) | d56 => (true, d37) | d57 => (true, d38) | d58 => (true, d39) | d59 => (true, d40) | d60 => (true, d41) | d61 => (true, d42) | d62 => (true, d43) | d63 => (true, d44) end
 | d46 => match b with | d0 => (false, d46) | d1 => (false, d47) | d2 => (false, d48) | d3 => (false, d49) | d4 => (false, d50) | d5 => (false, d51) | d6 => (false, d52) | d7 => (false, d53) | d8 => (false, d54) | d9 => (false, d55) | d10 => (false, d56) | d11 => (false, d57) | d12 => (false, d58) | d13 => (false, d59) | d14 => (false, d60) | d15 => (false, d61) | d16 => (false, d62) | d17 => (false, d63) | d18 => (true, d0) | d19 => (true, d1) | d20 => (true, d2) | d21 => (true, d3) | d22 => (true, d4) | d23 => (true, d5) | d24 => (true, d6) | d25 => (true, d7) | d26 => (true, d8) | d27 => (true, d9) | d28 => (true, d10) | d29 => (true, d11) | d30 => (true, d12) | d31 => (true, d13) | d32 => (true, d14) | d33 => (true, d15) | d34 => (true, d16) | d35 => (true, d17) | d36 => (true, d18) | d37 => (true, d19) | d38 => (true, d20) | d39 => (true, d21) | d40 => (true, d22) | d41 => (true, d23) | d42 => (true, d24) | d43 => (true, d25) | d44 => (true, d26) | d45 => (true, d27) | d46 => (true, d28) | d47 => (true, d29) | d48 => (true, d30) | d49 => (true, d31) | d50 => (true, d32) | d51 => (true, d33) | d52 => (true, d34) | d53 => (true, d35) | d54 => (true, d36) | d55 => (true, d37) | d56 => (true, d38) | d57 => (true, d39) | d58 => (true, d40) | d59 => (true, d41) | d60 => (true, d42) | d61 => (true, d43) | d62 => (true, d44) | d63 => (true, d45) end
 | d47 => match b with | d0 => (false, d47) | d1 => (false, d48) | d2 => (false, d49) | d3 => (false, d50) | d4 => (false, d51) | d5 => (false, d52) | d6 => (false, d53) | d7 => (false, d54) | d8 => (false, d55) | d9 => (false, d56) | d10 => (false, d57) | d11 => (false, d58) | d12 => (false, d59) | d13 => (false, d60) | d14 => (false, d61) | d15 => (false, d62) | d16 => (false, d63) | d17 => (true, d0) | d18 => (true, d1) | d19 => (true, d2) | d20 => (true, d3) | d21 => (true, d4) | d22 => (true, d5) | d23 => (true, d6) | d24 => (true, d7) | d25 => (true, d8) | d26 => (true, d9) | d27 => (true, d10) | d28 => (true, d11) | d29 => (true, d12) | d30 => (true, d13) | d31 => (true, d14) | d32 => (true, d15) | d33 => (true, d16) | d34 => (true, d17) | d35 => (true, d18) | d36 => (true, d19) | d37 => (true, d20) | d38 => (true, d21) | d39 => (true, d22) | d40 => (true, d23) | d41 => (true, d24) | d42 => (true, d25) | d43 => (true, d26) | d44 => (true, d27) | d45 => (true, d28) | d46 => (true, d29) | d47 => (true, d30) | d48 => (true, d31) | d49 => (true, d32) | d50 => (true, d33) | d51 => (true, d34) | d52 => (true, d35) | d53 => (true, d36) | d54 => (true, d37) | d55 => (true, d38) | d56 => (true, d39) | d57 => (true, d40) | d58 => (true, d41) | d59 => (true, d42) | d60 => (true, d43) | d61 => (true, d44) | d62 => (true, d45) | d63 => (true, d46) end
 | d48 => match b with | d0 => (false, d48) | d1 => (false, d49) | d2 => (false, d50) | d3 => (false, d51) | d4 => (false, d52) | d5 => (false, d53) | d6 => (false, d54) | d7 => (false, d55) | d8 => (false, d56) | d9 => (false, d57) | d10 => (false, d58) | d11 => (false, d59) | d12 => (false, d60) | d13 => (false, d61) | d14 => (false, d62) | d15 => (false, d63) | d16 => (true, d0) | d17 => (true, d1) | d18 => (true, d2) | d19 => (true, d3) | d20 => (true, d4) | d21 => (true, d5) | d22 => (true, d6) | d23 => (true, d7) | d24 => (true, d8) | d25 => (true, d9) | d26 => (true, d10) | d27 => (true, d11) | d28 => (true, d12) | d29 => (true, d13) | d30 => (true, d14) | d31 => (true, d15) | d32 => (true, d16) | d33 => (true, d17) | d34 => (true, d18) | d35 => (true, d19) | d36 => (true, d20) | d37 => (true, d21) | d38 => (true, d22) | d39 => (true, d23) | d40 => (true, d24) | d41 => (true, d25) | d42 => (true, d26) | d43 => (true, d27) | d44 => (true, d28) | d45 => (true, d29) | d46 => (true, d30) | d47 => (true, d31) | d48 => (true, d32) | d49 => (true, d33) | d50 => (true, d34) | d51 => (true, d35) | d52 => (true, d36) | d53 => (true, d37) | d54 => (true, d38) | d55 => (true, d39) | d56 => (true, d40) | d57 => (true, d41) | d58 => (true, d42) | d59 => (true, d43) | d60 => (true, d44) | d61 => (true, d45) | d62 => (true, d46) | d63 => (true, d47) end
 | d49 => match b with | d0 => (false, d49) | d1 => (false, d50) | d2 => (false, d51) | d3 => (false, d52) | d4 => (false, d53) | d5 => (false, d54) | d6 => (false, d55) | d7 => (false, d56) | d8 => (false, d57) | d9 => (false, d58) | d10 => (false, d59) | d11 => (false, d60) | d12 => (false, d61) | d13 => (false, d62) | d14 => (false, d63) | d15 => (true, d0) | d16 => (true, d1) | d17 => (true, d2) | d18 => (true, d3) | d19 => (true, d4) | d20 => (true, d5) | d21 => (true, d6) | d22 => (true, d7) | d23 => (true, d8) | d24 => (true, d9) | d25 => (true, d10) | d26 => (true, d11) | d27 => (true, d12) | d28 => (true, d13) | d29 => (true, d14) | d30 => (true, d15) | d31 => (true, d16) | d32 => (true, d17) | d33 => (true, d18) | d34 => (true, d19) | d35 => (true, d20) | d36 => (true, d21) | d37 => (true, d22) | d38 => (true, d23) | d39 => (true, d24) | d40 => (true, d25) | d41 => (true, d26) | d42 => (true, d27) | d43 => (true, d28) | d44 => (true, d29) | d45 => (true, d30) | d46 => (true, d31) | d47 => (true, d32) | d48 => (true, d33) | d49 => (true, d34) | d50 => (true, d35) | d51 => (true, d36) | d52 => (true, d37) | d53 => (true, d38) | d54 => (true, d39) | d55 => (true, d40) | d56 => (true, d41) | d57 => (true, d42) | d58 => (true, d43) | d59 => (true, d44) | d60 => (true, d45) | d61 => (true, d46) | d62 => (true, d47) | d63 => (true, d48) end
 | d50 => match b with | d0 => (false, d50) | d1 => (false, d51) | d2 => (false, d52) | d3 => (false, d53) | d4 => (false, d54) | d5 => (false, d55) | d6 => (false, d56) | d7 => (false, d57) | d8 => (false, d58) | d9 => (false, d59) | d10 => (false, d60) | d11 => (false, d61) | d12 => (false, d62) | d13 => (false, d63) | d14 => (true, d0) | d15 => (true, d1) | d16 => (true, d2) | d17 => (true, d3) | d18 => (true, d4) | d19 => (true, d5) | d20 => (true, d6) | d21 => (true, d7) | d22 => (true, d8) | d23 => (true, d9) | d24 => (true, d10) | d25 => (true, d11) | d26 => (true, d12) | d27 => (true, d13) | d28 => (true, d14) | d29 => (true, d15) | d30 => (true, d16) | d31 => (true, d17) | d32 => (true, d18) | d33 => (true, d19) | d34 => (true, d20) | d35 => (true, d21) | d36 => (true, d22) | d37 => (true, d23) | d38 => (true, d24) | d39 => (true, d25) | d40 => (true, d26) | d41 => (true, d27) | d42 => (true, d28) | d43 => (true, d29) | d44 => (true, d30) | d45 => (true, d31) | d46 => (true, d32) | d47 => (true, d33) | d48 => (true, d34) | d49 => (true, d35) | d50 => (true, d36) | d51 => (true, d37) | d52 => (true, d38) | d53 => (true, d39) | d54 => (true, d40) | d55 => (true, d41) | d56 => (true, d42) | d57 => (true, d43) | d58 => (true, d44) | d59 => (true, d45) | d60 => (true, d46) | d61 => (true, d47) | d62 => (true, d48) | d63 => (true, d49) end
 | d51 => match b with | d0 => (false, d51) | d1 => (false, d52) | d2 => (false, d53) | d3 => (false, d54) | d4 => (false, d55) | d5 => (false, d56) | d6 => (false, d57) | d7 => (false, d58) | d8 => (false, d59) | d9 => (false, d60) | d10 => (false, d61) | d11 => (false, d62) | d12 => (false, d63) | d13 => (true, d0) | d14 => (true, d1) | d15 => (true, d2) | d16 => (true, d3) | d17 => (true, d4) | d18 => (true, d5) | d19 => (true, d6) | d20 => (true, d7) | d21 => (true, d8) | d22 => (true, d9) | d23 => (true, d10) | d24 => (true, d11) | d25 => (true, d12) | d26 => (true, d13) | d27 => (true, d14) | d28 => (true, d15) | d29 => (true, d16) | d30 => (true, d17) | d31 => (true, d18) | d32 => (true, d19) | d33 => (true, d20) | d34 => (true, d21) | d35 => (true, d22) | d36 => (true, d23) | d37 => (true, d24) | d38 => (true, d25) | d39 => (true, d26) | d40 => (true, d27) | d41 => (true, d28) | d42 => (true, d29) | d43 => (true, d30) | d44 => (true, d31) | d45 => (true, d32) | d46 => (true, d33) | d47 => (true, d34) | d48 => (true, d35) | d49 => (true, d36) | d50 => (true, d37) | d51 => (true, d38) | d52 => (true, d39) | d53 => (true, d40) | d54 => (true, d41) | d55 => (true, d42) | d56 => (true, d43) | d57 => (true, d44) | d58 => (true, d45) | d59 => (true, d46) | d60 => (true, d47) | d61 => (true, d48) | d62 => (true, d49) | d63 => (true, d50) end
 | d52 => match b with | d0 => (false, d52) | d1 => (false, d53) | d2 => (false, d54) | d3 => (false, d55) | d4 => (false, d56) | d5 => (false, d57) | d6 => (false, d58) | d7 => (false, d59) | d8 => (false, d60) | d9 => (false, d61) | d10 => (false, d62) | d11 => (false, d63) | d12 => (true, d0) | d13 => (true, d1) | d14 => (true, d2) | d15 => (true, d3) | d16 => (true, d4) | d17 => (true, d5) | d18 => (true, d6) | d19 => (true, d7) | d20 => (true, d8) | d21 => (true, d9) | d22 => (true, d10) | d23 => (true, d11) | d24 => (true, d12) | d25 => (true, d13) | d26 => (true, d14) | d27 => (true, d15) | d28 => (true, d16) | d29 => (true, d17) | d30 => (true, d18) | d31 => (true, d19) | d32 => (true, d20) | d33 => (true, d21) | d34 => (true, d22) | d35 => (true, d23) | d36 => (true, d24) | d37 => (true, d25) | d38 => (true, d26) | d39 => (true, d27) | d40 => (true, d28) | d41 => (true, d29) | d42 => (true, d30) | d43 => (true, d31) | d44 => (true, d32) | d45 => (true, d33) | d46 => (true, d34) | d47 => (true, d35) | d48 => (true, d36) | d49 => (true, d37) | d50 => (true, d38) | d51 => (true, d39) | d52 => (true, d40) | d53 => (true, d41) | d54 => (true, d42) | d55 => (true, d43) | d56 => (true, d44) | d57 => (true, d45) | d58 => (true, d46) | d59 => (true, d47) | d60 => (true, d48) | d61 => (true, d49) | d62 => (true, d50) | d63 => (true, d51) end
 | d53 => match b with | d0 => (false, d53) | d1 => (false, d54) | d2 => (false, d55) | d3 => (false, d56) | d4 => (false, d57) | d5 => (false, d58) | d6 => (false, d59) | d7 => (false, d60) | d8 => (false, d61) | d9 => (false, d62) | d10 => (false, d63) | d11 => (true, d0) | d12 => (true, d1) | d13 => (true, d2) | d14 => (true, d3) | d15 => (true, d4) | d16 => (true, d5) | d17 => (true, d6) | d18 => (true, d7) | d19 => (true, d8) | d20 => (true, d9) | d21 => (true, d10) | d22 => (true, d11) | d23 => (true, d12) | d24 => (true, d13) | d25 => (true, d14) | d26 => (true, d15) | d27 => (true, d16) | d28 => (true, d17) | d29 => (true, d18) | d30 => (true, d19) | d31 => (true, d20) | d32 => (true, d21) | d33 => (true, d22) | d34 => (true, d23) | d35 => (true, d24) | d36 => (true, d25) | d37 => (true, d26) | d38 => (true, d27) | d39 => (true, d28) | d40 => (true, d29) | d41 => (true, d30) | d42 => (true, d31) | d43 => (true, d32) | d44 => (true, d33) | d45 => (true, d34) | d46 => (true, d35) | d47 => (true, d36) | d48 => (true, d37) | d49 => (true, d38) | d50 => (true, d39) | d51 => (true, d40) | d52 => (true, d41) | d53 => (true, d42) | d54 => (true, d43) | d55 => (true, d44) | d56 => (true, d45) | d57 => (true, d46) | d58 => (true, d47) | d59 => (true, d48) | d60 => (true, d49) | d61 => (true, d50) | d62 => (true, d51) | d63 => (true, d52) end
 | d54 => match b with | d0 => (false, d54) | d1 => (false, d55) | d2 => (false, d56) | d3 => (false, d57) | d4 => (false, d58) | d5 => (false, d59) | d6 => (false, d60) | d7 => (false, d61) | d8 => (false, d62) | d9 => (false, d63) | d10 => (true, d0) | d11 => (true, d1) | d12 => (true, d2) | d13 => (true, d3) | d14 => (true, d4) | d15 => (true, d5) | d16 => (true, d6) | d17 => (true, d7) | d18 => (true, d8) | d19 => (true, d9) | d20 => (true, d10) | d21 => (true, d11) | d22 => (true, d12) | d23 => (true, d13) | d24 => (true, d14) | d25 => (true, d15) | d26 => (true, d16) | d27 => (true, d17) | d28 => (true, d18) | d29 => (true, d19) | d30 => (true, d20) | d31 => (true, d21) | d32 => (true, d22) | d33 => (true, d23) | d34 => (true, d24) | d35 => (true, d25) | d36 => (true, d26) | d37 => (true, d27) | d38 => (true, d28) | d39 => (true, d29) | d40 => (true, d30) | d41 => (true, d31) | d42 => (true, d32) | d43 => (true, d33) | d44 => (true, d34) | d45 => (true, d35) | d46 => (true, d36) | d47 => (true, d37) | d48 => (true, d38) | d49 => (true, d39) | d50 => (true, d40) | d51 => (true, d41) | d52 => (true, d42) | d53 => (true, d43) | d54 => (true, d44) | d55 => (true, d45) | d56 => (true, d46) | d57 => (true, d47) | d58 => (true, d48) | d59 => (true, d49) | d60 => (true, d50) | d61 => (true, d51) | d62 => (true, d52) | d63 => (true, d53) end
 | d55 => match b with | d0 => (false, d55) | d1 => (false, d56) | d2 => (false, d57) | d3 => (false, d58) | d4 => (false, d59) | d5 => (false, d60) | d6 => (false, d61) | d7 => (false, d62) | d8 => (false, d63) | d9 => (true, d0) | d10 => (true, d1) | d11 => (true, d2) | d12 => (true, d3) | d13 => (true, d4) | d14 => (true, d5) | d15 => (true, d6) | d16 => (true, d7) | d17 => (true, d8) | d18 => (true, d9) | d19 => (true, d10) | d20 => (true, d11) | d21 => (true, d12) | d22 => (true, d13) | d23 => (true, d14) | d24 => (true, d15) | d25 => (true, d16) | d26 => (true, d17) | d27 => (true, d18) | d28 => (true, d19) | d29 => (true, d20) | d30 => (true, d21) | d31 => (true, d22) | d32 => (true, d23) | d33 => (true, d24) | d34 => (true, d25) | d35 => (true, d26) | d36 => (true, d27) | d37 => (true, d28) | d38 => (true, d29) | d39 => (true, d30) | d40 => (true, d31) | d41 => (true, d32) | d42 => (true, d33) | d43 => (true, d34) | d44 => (true, d35) | d45 => (true, d36) | d46 => (true, d37) | d47 => (true, d38) | d48 => (true, d39) | d49 => (true, d40) | d50 => (true, d41) | d51 => (true, d42) | d52 => (true, d43) | d53 => (true, d44) | d54 => (true, d45) | d55 => (true, d46) | d56 => (true, d47) | d57 => (true, d48) | d58 => (true, d49) | d59 => (true, d50) | d60 => (true, d51) | d61 => (true, d52) | d62 => (true, d53) | d63 => (true, d54) end
 | d56 => match b with | d0 => (false, d56) | d1 => (false, d57) | d2 => (false, d58) | d3 => (false, d59) | d4 => (false, d60) | d5 => (false, d61) | d6 => (false, d62) | d7 => (false, d63) | d8 => (true, d0) | d9 => (true, d1) | d10 => (true, d2) | d11 => (true, d3) | d12 => (true, d4) | d13 => (true, d5) | d14 => (true, d6) | d15 => (true, d7) | d16 => (true, d8) | d17 => (true, d9) | d18 => (true, d10) | d19 => (true, d11) | d20 => (true, d12) | d21 => (true, d13) | d22 => (true, d14) | d23 => (true, d15) | d24 => (true, d16) | d25 => (true, d17) | d26 => (true, d18) | d27 => (true, d19) | d28 => (true, d20) | d29 => (true, d21) | d30 => (true, d22) | d31 => (true, d23) | d32 => (true, d24) | d33 => (true, d25) | d34 => (true, d26) | d35 => (true, d27) | d36 => (true, d28) | d37 => (true, d29) | d38 => (true, d30) | d39 => (true, d31) | d40 => (true, d32) | d41 => (true, d33) | d42 => (true, d34) | d43 => (true, d35) | d44 => (true, d36) | d45 => (true, d37) | d46 => (true, d38) | d47 => (true, d39) | d48 => (true, d40) | d49 => (true, d41) | d50 => (true, d42) | d51 => (true, d43) | d52 => (true, d44) | d53 => (true, d45) | d54 => (true, d46) | d55 => (true, d47) | d56 => (true, d48) | d57 => (true, d49) | d58 => (true, d50) | d59 => (true, d51) | d60 => (true, d52) | d61 => (true, d53) | d62 => (true, d54) | d63 => (true, d55) end
 | d57 => match b with | d0 => (false, d57) | d1 => (false, d58) | d2 => (false, d59) | d3 => (false, d60) | d4 => (false, d61) | d5 => (false, d62) | d6 => (false, d63) | d7 => (true, d0) | d8 => (true, d1) | d9 => (true, d2) | d10 => (true, d3) | d11 => (true, d4) | d12 => (true, d5) | d13 => (true, d6) | d14 => (true, d7) | d15 => (true, d8) | d16 => (true, d9) | d17 => (true, d10) | d18 => (true, d11) | d19 => (true, d12) | d20 => (true, d13) | d21 => (true, d14) | d22 => (true, d15) | d23 => (true, d16) | d24 => (true, d17) | d25 => (true, d18) | d26 => (true, d19) | d27 => (true, d20) | d28 => (true, d21) | d29 => (true, d22) | d30 => (true, d23) | d31 => (true, d24) | d32 => (true, d25) | d33 => (true, d26) | d34 => (true, d27) | d35 => (true, d28) | d36 => (true, d29) | d37 => (true, d30) | d38 => (true, d31) | d39 => (true, d32) | d40 => (true, d33) | d41 => (true, d34) | d42 => (true, d35) | d43 => (true, d36) | d44 => (true, d37) | d45 => (true, d38) | d46 => (true, d39) | d47 => (true, d40) | d48 => (true, d41) | d49 => (true, d42) | d50 => (true, d43) | d51 => (true, d44) | d52 => (true, d45) | d53 => (true, d46) | d54 => (true, d47) | d55 => (true, d48) | d56 => (true, d49) | d57 => (true, d50) | d58 => (true, d51) | d59 => (true, d52) | d60 => (true, d53) | d61 => (true, d54) | d62 => (true, d55) | d63 => (true, d56) end
 | d58 => match b with | d0 => (false, d58) | d1 => (false, d59) | d2 => (false, d60) | d3 => (false, d61) | d4 => (false, d62) | d5 => (false, d63) | d6 => (true, d0) | d7 => (true, d1) | d8 => (true, d2) | d9 => (true, d3) | d10 => (true, d4) | d11 => (true, d5) | d12 => (true, d6) | d13 => (true, d7) | d14 => (true, d8) | d15 => (true, d9) | d16 => (true, d10) | d17 => (true, d11) | d18 => (true, d12) | d19 => (true, d13) | d20 => (true, d14) | d21 => (true, d15) | d22 => (true, d16) | d23 => (true, d17) | d24 => (true, d18) | d25 => (true, d19) | d26 => (true, d20) | d27 => (true, d21) | d28 => (true, d22) | d29 => (true, d23) | d30 => (true, d24) | d31 => (true, d25) | d32 => (true, d26) | d33 => (true, d27) | d34 => (true, d28) | d35 => (true, d29) | d36 => (true, d30) | d37 => (true, d31) | d38 => (true, d32) | d39 => (true, d33) | d40 => (true, d34) | d41 => (true, d35) | d42 => (true, d36) | d43 => (true, d37) | d44 => (true, d38) | d45 => (true, d39) | d46 => (true, d40) | d47 => (true, d41) | d48 => (true, d42) | d49 => (true, d43) | d50 => (true, d44) | d51 => (true, d45) | d52 => (true, d46) | d53 => (true, d47) | d54 => (true, d48) | d55 => (true, d49) | d56 => (true, d50) | d57 => (true, d51) | d58 => (true, d52) | d59 => (true, d53) | d60 => (true, d54) | d61 => (true, d55) | d62 => (true, d56) | d63 => (true, d57) end
 | d59 => match b with | d0 => (false, d59) | d1 => (false, d60) | d2 => (false, d61) | d3 => (false, d62) | d4 => (false, d63) | d5 => (true, d0) | d6 => (true, d1) | d7 => (true, d2) | d8 => (true, d3) | d9 => (true, d4) | d10 => (true, d5) | d11 => (true, d6) | d12 => (true, d7) | d13 => (true, d8) | d14 => (true, d9) | d15 => (true, d10) | d16 => (true, d11) | d17 => (true, d12) | d18 => (true, d13) | d19 => (true, d14) | d20 => (true, d15) | d21 => (true, d16) | d22 => (true, d17) | d23 => (true, d18) | d24 => (true, d19) | d25 => (true, d20) | d26 => (true, d21) | d27 => (true, d22) | d28 => (true, d23) | d29 => (true, d24) | d30 => (true, d25) | d31 => (true, d26) | d32 => (true, d27) | d33 => (true, d28) | d34 => (true, d29) | d35 => (true, d30) | d36 => (true, d31) | d37 => (true, d32) | d38 => (true, d33) | d39 => (true, d34) | d40 => (true, d35) | d41 => (true, d36) | d42 => (true, d37) | d43 => (true, d38) | d44 => (true, d39) | d45 => (true, d40) | d46 => (true, d41) | d47 => (true, d42) | d48 => (true, d43) | d49 => (true, d44) | d50 => (true, d45) | d51 => (true, d46) | d52 => (true, d47) | d53 => (true, d48) | d54 => (true, d49) | d55 => (true, d50) | d56 => (true, d51) | d57 => (true, d52) | d58 => (true, d53) | d59 => (true, d54) | d60 => (true, d55) | d61 => (true, d56) | d62 => (true, d57) | d63 => (true, d58) end
 | d60 => match b with | d0 => (false, d60) | d1 => (false, d61) | d2 => (false, d62) | d3 => (false, d63) | d4 => (true, d0) | d5 => (true, d1) | d6 => (true, d2) | d7 => (true, d3) | d8 => (true, d4) | d9 => (true, d5) | d10 => (true, d6) | d11 => (true, d7) | d12 => (true, d8) | d13 => (true, d9) | d14 => (true, d10) | d15 => (true, d11) | d16 => (true, d12) | d17 => (true, d13) | d18 => (true, d14) | d19 => (true, d15) | d20 => (true, d16) | d21 => (true, d17) | d22 => (true, d18) | d23 => (true, d19) | d24 => (true, d20) | d25 => (true, d21) | d26 => (true, d22) | d27 => (true, d23) | d28 => (true, d24) | d29 => (true, d25) | d30 => (true, d26) | d31 => (true, d27) | d32 => (true, d28) | d33 => (true, d29) | d34 => (true, d30) | d35 => (true, d31) | d36 => (true, d32) | d37 => (true, d33) | d38 => (true, d34) | d39 => (true, d35) | d40 => (true, d36) | d41 => (true, d37) | d42 => (true, d38) | d43 => (true, d39) | d44 => (true, d40) | d45 => (true, d41) | d46 => (true, d42) | d47 => (true, d43) | d48 => (true, d44) | d49 => (true, d45) | d50 => (true, d46) | d51 => (true, d47) | d52 => (true, d48) | d53 => (true, d49) | d54 => (true, d50) | d55 => (true, d51) | d56 => (true, d52) | d57 => (true, d53) | d58 => (true, d54) | d59 => (true, d55) | d60 => (true, d56) | d61 => (true, d57) | d62 => (true, d58) | d63 => (true, d59) end
 | d61 => match b with | d0 => (false, d61) | d1 => (false, d62) | d2 => (false, d63) | d3 => (true, d0) | d4 => (true, d1) | d5 => (true, d2) | d6 => (true, d3) | d7 => (true, d4) | d8 => (true, d5) | d9 => (true, d6) | d10 => (true, d7) | d11 => (true, d8) | d12 => (true, d9) | d13 => (true, d10) | d14 => (true, d11) | d15 => (true, d12) | d16 => (true, d13) | d17 => (true, d14) | d18 => (true, d15) | d19 => (true, d16) | d20 => (true, d17) | d21 => (true, d18) | d22 => (true, d19) | d23 => (true, d20) | d24 => (true, d21) | d25 => (true, d22) | d26 => (true, d23) | d27 => (true, d24) | d28 => (true, d25) | d29 => (true, d26) | d30 => (true, d27) | d31 => (true, d28) | d32 => (true, d29) | d33 => (true, d30) | d34 => (true, d31) | d35 => (true, d32) | d36 => (true, d33) | d37 => (true, d34) | d38 => (true, d35) | d39 => (true, d36) | d40 => (true, d37) | d41 => (true, d38) | d42 => (true, d39) | d43 => (true, d40) | d44 => (true, d41) | d45 => (true, d42) | d46 => (true, d43) | d47 => (true, d44) | d48 => (true, d45) | d49 => (true, d46) | d50 => (true, d47) | d51 => (true, d48) | d52 => (true, d49) | d53 => (true, d50) | d54 => (true, d51) | d55 => (true, d52) | d56 => (true, d53) | d57 => (true, d54) | d58 => (true, d55) | d59 => (true, d56) | d60 => (true, d57) | d61 => (true, d58) | d62 => (true, d59) | d63 => (true, d60) end
 | d62 => match b with | d0 => (false, d62) | d1 => (false, d63) | d2 => (true, d0) | d3 => (true, d1) | d4 => (true, d2) | d5 => (true, d3) | d6 => (true, d4) | d7 => (true, d5) | d8 => (true, d6) | d9 => (true, d7) | d10 => (true, d8) | d11 => (true, d9) | d12 => (true, d10) | d13 => (true, d11) | d14 => (true, d12) | d15 => (true, d13) | d16 => (true, d14) | d17 => (true, d15) | d18 => (true, d16) | d19 => (true, d17) | d20 => (true, d18) | d21 => (true, d19) | d22 => (true, d20) | d23 => (true, d21) | d24 => (true, d22) | d25 => (true, d23) | d26 => (true, d24) | d27 => (true, d25) | d28 => (true, d26) | d29 => (true, d27) | d30 => (true, d28) | d31 => (true, d29) | d32 => (true, d30) | d33 => (true, d31) | d34 => (true, d32) | d35 => (true, d33) | d36 => (true, d34) | d37 => (true, d35) | d38 => (true, d36) | d39 => (true, d37) | d40 => (true, d38) | d41 => (true, d39) | d42 => (true, d40) | d43 => (true, d41) | d44 => (true, d42) | d45 => (true, d43) | d46 => (true, d44) | d47 => (true, d45) | d48 => (true, d46) | d49 => (true, d47) | d50 => (true, d48) | d51 => (true, d49) | d52 => (true, d50) | d53 => (true, d51) | d54 => (true, d52) | d55 => (true, d53) | d56 => (true, d54) | d57 => (true, d55) | d58 => (true, d56) | d59 => (true, d57) | d60 => (true, d58) | d61 => (true, d59) | d62 => (true, d60) | d63 => (true, d61) end
 | d63 => match b with | d0 => (false, d63) | d1 => (true, d0) | d2 => (true, d1) | d3 => (true, d2) | d4 => (true, d3) | d5 => (true, d4) | d6 => (true, d5) | d7 => (true, d6) | d8 => (true, d7) | d9 => (true, d8) | d10 => (true, d9) | d11 => (true, d10) | d12 => (true, d11) | d13 => (true, d12) | d14 => (true, d13) | d15 => (true, d14) | d16 => (true, d15) | d17 => (true, d16) | d18 => (true, d17) | d19 => (true, d18) | d20 => (true, d19) | d21 => (true, d20) | d22 => (true, d21) | d23 => (true, d22) | d24 => (true, d23) | d25 => (true, d24) | d26 => (true, d25) | d27 => (true, d26) | d28 => (true, d27) | d29 => (true, d28) | d30 => (true, d29) | d31 => (true, d30) | d32 => (true, d31) | d33 => (true, d32) | d34 => (true, d33) | d35 => (true, d34) | d36 => (true, d35) | d37 => (true, d36) | d38 => (true, d37) | d39 => (true, d38) | d40 => (true, d39) | d41 => (true, d40) | d42 => (true, d41) | d43 => (true, d42) | d44 => (true, d43) | d45 => (true, d44) | d46 => (true, d45) | d47 => (true, d46) | d48 => (true, d47) | d49 => (true, d48) | d50 => (true, d49) | d51 => (true, d50) | d52 => (true, d51) | d53 => (true, d52) | d54 => (true, d53) | d55 => (true, d54) | d56 => (true, d55) | d57 => (true, d56) | d58 => (true, d57) | d59 => (true, d58) | d60 => (true, d59) | d61 => (true, d60) | d62 => (true, d61) | d63 => (true, d62) end
 end.

Definition dinc (c : bool) (a : dg) : dg :=
 match c with false => a | true => match a with | d0 => d1 | d1 => d2 | d2 => d3 | d3 => d4 | d4 => d5 | d5 => d6 | d6 => d7 | d7 => d8 | d8 => d9 | d9 => d10 | d10 => d11 | d11 => d12 | d12 => d13 | d13 => d14 | d14 => d15 | d15 => d16 | d16 => d17 | d17 => d18 | d18 => d19 | d19 => d20 | d20 => d21 | d21 => d22 | d22 => d23 | d23 => d24 | d24 => d25 | d25 => d26 | d26 => d27 | d27 => d28 | d28 => d29 | d29 => d30 | d30 => d31 | d31 => d32 | d32 => d33 | d33 => d34 | d34 => d35 | d35 => d36 | d36 => d37 | d37 => d38 | d38 => d39 | d39 => d40 | d40 => d41 | d41 => d42 | d42 => d43 | d43 => d44 | d44 => d45 | d45 => d46 | d46 => d47 | d47 => d48 | d48 => d49 | d49 => d50 | d50 => d51 | d51 => d52 | d52 => d53 | d53 => d54 | d54 => d55 | d55 => d56 | d56 => d57 | d57 => d58 | d58 => d59 | d59 => d60 | d60 => d61 | d61 => d62 | d62 => d63 | d63 => d0 end end.

Require Import ZArith List.
Import ListNotations.
Local Open Scope Z_scope.
Definition dv (a : dg) : Z := match a with | d0 => 0 | d1 => 1 | d2 => 2 | d3 => 3 | d4 => 4 | d5 => 5 | d6 => 6 | d7 => 7 | d8 => 8 | d9 => 9 | d10 => 10 | d11 => 11 | d12 => 12 | d13 => 13 | d14 => 14 | d15 => 15 | d16 => 16 | d17 => 17 | d18 => 18 | d19 => 19 | d20 => 20 | d21 => 21 | d22 => 22 | d23 => 23 | d24 => 24 | d25 => 25 | d26 => 26 | d27 => 27 | d28 => 28 | d29 => 29 | d30 => 30 | d31 => 31 | d32 => 32 | d33 => 33 | d34 => 34 | d35 => 35 | d36 => 36 | d37 => 37 | d38 => 38 | d39 => 39 | d40 => 40 | d41 => 41 | d42 => 42 | d43 => 43 | d44 => 44 | d45 => 45 | d46 => 46 | d47 => 47 | d48 => 48 | d49 => 49 | d50 => 50 | d51 => 51 | d52 => 52 | d53 => 53 | d54 => 54 | d55 => 55 | d56 => 56 | d57 => 57 | d58 => 58 | d59 => 59 | d60 => 60 | d61 => 61 | d62 => 62 | d63 => 63 end.
Definition all_dg : list dg := [d0; d1; d2; d3; d4; d5; d6; d7; d8; d9; d10; d11; d12; d13; d14; d15; d16; d17; d18; d19; d20; d21; d22; d23; d24; d25; d26; d27; d28; d29; d30; d31; d32; d33; d34; d35; d36; d37; d38; d39; d40; d41; d42; d43; d44; d45; d46; d47; d48; d49; d50; d51; d52; d53; d54; d55; d56; d57; d58; d59; d60; d61; d62; d63].

Lemma all_dg_in a : In a all_dg.
Proof. destruct a; cbn; repeat (try (left; reflexivity); right). Qed.
