#!/usr/bin/env python3
"""Writes theories/Suites.v: the cipher and AKM suite enumerations of src/elements/rsn.rs, taken
from the text of the file."""
import re
src = open('/repo/src/elements/rsn.rs').read()
out = ['(** Generated by tools/gen_suites.py from /repo/src/elements/rsn.rs. *)',
       'From Verif Require Import Base.', '',
       '(** rsn.rs:17-26: OUI and suite type as a little-endian [u32] *)',
       'Definition merge_oui_and_suite_type (oui : bytes) (suite_type : N) : N := le_val (oui ++ [suite_type]).',
       '(** rsn.rs:28-35 *)',
       'Definition split_cipher_suite_selector (sel : N) : bytes * N :=',
       '  (firstn 3 (le_bytes 4 sel), nth 3 (le_bytes 4 sel) 0%N).',
       '(** common/mod.rs:32 *)',
       'Definition IEEE_OUI : bytes := [0x00; 0x0f; 0xac]%N.',
       '(** rsn.rs:37-43 *)',
       'Definition get_suite_type_if_oui_is_ieee (sel : N) : option N :=',
       '  if (N.land sel 0xffffff =? 0xac0f00)%N then Some (N.shiftr sel 24 mod 256)%N else None.',
       '']
for name, short, pre in [('IEEE80211CipherSuiteSelector', 'cipher', 'Cs'), ('IEEE80211AkmType', 'akm', 'Ak')]:
    m = re.search(r'pub enum %s \{(.*?)\n    \}\n\}' % name, src, re.S)
    items = re.findall(r'(\w+) => \(IEEE_OUI, (\d+)\)', m.group(1))
    start = src[:m.start()].count('\n') + 1
    end = src[:m.end()].count('\n') + 1
    T = 'CipherSuite' if short == 'cipher' else 'AkmType'
    out.append(f'(** rsn.rs:{start}-{end}, macro rsn.rs:45-124 *)')
    out.append(f'Inductive {T} :=')
    out.append(f'| {pre}_Unknown (sel : N)')
    for n, v in items:
        out.append(f'| {pre}_{n}')
    out[-1] += '.'
    out.append(f'Definition {short}_from_selector (sel : N) : {T} :=')
    out.append("  let '(oui, t) := split_cipher_suite_selector sel in")
    out.append('  if list_eq_dec N.eq_dec oui IEEE_OUI then')
    out.append('    match t with')
    for n, v in items:
        out.append(f'    | {v} => {pre}_{n}')
    out.append(f'    | _ => {pre}_Unknown (merge_oui_and_suite_type oui t)')
    out.append('    end%N')
    out.append(f'  else {pre}_Unknown (merge_oui_and_suite_type oui t).')
    out.append(f'Definition {short}_selector (x : {T}) : N :=')
    out.append('  match x with')
    out.append(f'  | {pre}_Unknown sel => sel')
    for n, v in items:
        out.append(f'  | {pre}_{n} => merge_oui_and_suite_type IEEE_OUI {v}')
    out.append('  end.')
    out.append(f'Definition {short}_eq_dec (x y : {T}) : {{x = y}} + {{x <> y}}.')
    out.append('Proof. decide equality. apply N.eq_dec. Defined.')
    out.append('')
open('/verif/rocq/theories/Suites.v', 'w').write('\n'.join(out))
