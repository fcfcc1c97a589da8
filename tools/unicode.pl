#!/usr/bin/perl
# Prints rocq/theories/UnicodeData.v from the Unicode tables that come with perl.
use strict; use warnings; use Unicode::UCD; no warnings;
my $v = Unicode::UCD::UnicodeVersion();
my @props = (
  ["xid_start_ranges", "XID_Start (unicode_ident::is_xid_start)", sub { $_[0] =~ /\p{XIDS}/ }],
  ["xid_continue_ranges", "XID_Continue (unicode_ident::is_xid_continue)", sub { $_[0] =~ /\p{XIDC}/ }],
  ["alphanumeric_ranges", "Alphabetic or Nd, Nl, No (char::is_alphanumeric)", sub { $_[0] =~ /[\p{Alphabetic}\p{N}]/ }],
  ["lowercase_ranges", "Lowercase (char::is_lowercase)", sub { $_[0] =~ /\p{Lowercase}/ }],
  ["uppercase_ranges", "Uppercase (char::is_uppercase)", sub { $_[0] =~ /\p{Uppercase}/ }],
  ["whitespace_ranges", "White_Space (char::is_whitespace)", sub { $_[0] =~ /\p{White_Space}/ }],
);
sub tree { my ($f, @l) = @_; return "Leaf" unless @l; my $m = int(@l/2);
  return "(Node ".tree($f,@l[0..$m-1])." ".$f->($l[$m])."\n ".tree($f,@l[$m+1..$#l]).")"; }
print "(** Unicode $v character data, generated by tools/unicode.pl; nothing else is in this file.\n";
print "    It stands for the tables of unicode-ident 1.0.18 and of the Rust standard library, which\n";
print "    progenitor-impl/src/util.rs:83-112 and heck 0.5.0 consult. *)\n";
print "From Verif Require Import Base UnicodeTree.\n\n";
for my $p (@props) {
  my ($n, $d, $f) = @$p; my @r;
  for my $c (0..0x10ffff) { next if $c >= 0xd800 && $c <= 0xdfff;
    next unless $f->(chr $c);
    if (@r && $r[-1][1] == $c-1) { $r[-1][1] = $c } else { push @r, [$c,$c] } }
  print "(** $d. *)\nDefinition $n : tree (N * N) :=\n ", tree(sub { "($_[0][0], $_[0][1])%N" }, @r), ".\n\n";
}
for my $p (["lower_entries", "char::to_lowercase where it is not the identity", sub { lc $_[0] }],
           ["upper_entries", "char::to_uppercase where it is not the identity", sub { uc $_[0] }]) {
  my ($n, $d, $f) = @$p; my @r;
  for my $c (0..0x10ffff) { next if $c >= 0xd800 && $c <= 0xdfff;
    my $s = chr $c; utf8::upgrade($s); my $t = $f->($s); next if $t eq $s; push @r, [$c, join("; ", map ord, split //, $t)]; }
  print "(** $d. *)\nDefinition $n : tree (N * list N) :=\n ", tree(sub { "($_[0][0], [$_[0][1]])%N" }, @r), ".\n\n";
}
