#!/usr/bin/env python3
"""Generates rocq/theories/UnicodeTables.v: the code points of general category
L* (what Go's unicode.IsLetter accepts).  go.mod asks for Go 1.23, whose unicode
package is Unicode 15.0.0.  Python here ships 14.0.0; the letters added by
15.0.0 are listed explicitly."""
import unicodedata
assert unicodedata.unidata_version == '14.0.0'
ADD = [(0x11F02,0x11F02),(0x11F04,0x11F10),(0x11F12,0x11F33),(0x11240,0x11240),
       (0x13441,0x13446),(0x1B132,0x1B132),(0x1B155,0x1B155),(0x1DF25,0x1DF2A),
       (0x1E030,0x1E06D),(0x1E4D0,0x1E4EB),(0x2B739,0x2B739),(0x31350,0x323AF),
       (0x1123F,0x1123F)]
L = {c for c in range(0x110000) if unicodedata.category(chr(c)).startswith('L')}
for a,b in ADD: L |= set(range(a,b+1))
rs=[]; s=None
for c in range(0x110001):
    if c in L:
        if s is None: s=c
    elif s is not None:
        rs.append((s,c-1)); s=None
print('(** GENERATED by tools/gen_unicode.py: code points of category L (Unicode 15.0.0),')
print('    i.e. the set decided by Go\'s [unicode.IsLetter] (used at ast/tokens.go:404). *)')
print('From Verif Require Import Bytes.\n')
print('Definition letter_ranges : list (Z * Z) :=\n  [')
print(';\n'.join('   '+'; '.join('(%d, %d)'%p for p in rs[i:i+6]) for i in range(0,len(rs),6)))
print('  ].')
print('''
(** Membership in a sorted list of closed ranges. *)
Fixpoint in_ranges (l : list (Z * Z)) (r : Z) : bool :=
  match l with
  | [] => false
  | (a, b) :: l' => if r <? a then false else if r <=? b then true else in_ranges l' r
  end.

(** [unicode.IsLetter]; negative runes (the lexer's EOF = -1) are not letters. *)
Definition unicode_is_letter (r : Z) : bool := in_ranges letter_ranges r.''')
