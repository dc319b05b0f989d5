#!/usr/bin/perl
# Generates rocq/theories/UnicodeData.v from perl's own Unicode database.
use strict; use warnings;
use Unicode::UCD qw(prop_invlist prop_invmap);
sub ranges { my @l = @_; my @r; for (my $i=0;$i<@l;$i+=2){ my $hi = $i+1<@l ? $l[$i+1]-1 : 0x10FFFF; push @r,[$l[$i],$hi]; } return @r; }
sub emit { my ($name,$doc,@r)=@_; print "(** $doc *)\nDefinition $name : list (N * N) :=\n  ["; my $n=0; for my $x (@r){ print ";" if $n; print "\n   " if $n && $n%8==0; print " ($x->[0],$x->[1])"; $n++; } print "].\n\n"; }
print "(** * UnicodeData: concrete character tables. GENERATED by tools/gen_unicode.pl from the Unicode\n    database of perl (Unicode ".Unicode::UCD::UnicodeVersion()."); used only to instantiate the [unicode] parameter and the\n    example segmenter, never as a hypothesis.  Ranges are sorted and inclusive. *)\n\n";
print "From Coq Require Import ZArith.\nFrom Verif Require Import Base Utf8 Unicode.\nLocal Open Scope N_scope.\n\n";
emit("gc_P","General category P (unicode.IsPunct)", ranges(prop_invlist("gc=P")));
emit("white_space","White_Space (unicode.IsSpace)", ranges(prop_invlist("White_Space")));
emit("gc_L","General category L (unicode.IsLetter)", ranges(prop_invlist("gc=L")));
emit("gc_N","General category N (unicode.IsNumber)", ranges(prop_invlist("gc=N")));
# simple lower case
my ($list,$map,$format,$default)=prop_invmap("Simple_Lowercase_Mapping");
my %low; 
for my $i (0..$#$list){ my $m=$map->[$i]; next if $m eq '0' || $m == 0; my $hi=$i<$#$list?$list->[$i+1]-1:0x10FFFF; for my $c ($list->[$i]..$hi){ $low{$c}=$m+($c-$list->[$i]); } }
my @cs=sort {$a<=>$b} keys %low; my @runs;
for my $c (@cs){ my $d=$low{$c}-$c; my $done=0;
  if(@runs){ my $r=$runs[-1]; # lo hi stride delta
    if($r->[3]==$d){ if($r->[0]==$r->[1] && $c-$r->[1]<=2){ $r->[2]=$c-$r->[1]; $r->[1]=$c; $done=1; } elsif($r->[0]!=$r->[1] && $c-$r->[1]==$r->[2]){ $r->[1]=$c; $done=1; } } }
  push @runs,[$c,$c,1,$d] unless $done; }
print "(** Simple lower-case mapping: (lo, hi, stride, delta) *)\nDefinition lower_runs : list (N * N * N * Z) :=\n  ["; my $n=0;
for my $r (@runs){ print ";" if $n; print "\n   " if $n && $n%6==0; print " ($r->[0],$r->[1],$r->[2],($r->[3])%Z)"; $n++; } print "].\n\n";
my %wb=(CR=>'CR',LF=>'LF',NL=>'Newline',Extend=>'Extend',ZWJ=>'ZWJ',FO=>'Format',KA=>'Katakana',HL=>'Hebrew',LE=>'ALetter',MB=>'MidNumLet',ML=>'MidLetter',MN=>'MidNum',NU=>'Numeric',EX=>'ExtendNumLet',SQ=>'SingleQuote',DQ=>'DoubleQuote',RI=>'RI',WSegSpace=>'WSegSpace');
print "(** Word_Break classes (UAX #29). *)\nInductive wbclass := WOther";
for my $k (sort keys %wb){ print " | W$wb{$k}"; } print ".\n\n";
my @all; for my $k (sort keys %wb){ for my $r (ranges(prop_invlist("WB=$k"))){ push @all,[@$r,"W$wb{$k}"]; } }
@all=sort {$a->[0]<=>$b->[0]} @all;
print "Definition wb_ranges : list (N * N * wbclass) :=\n  ["; $n=0; for my $x (@all){ print ";" if $n; print "\n   " if $n && $n%6==0; print " ($x->[0],$x->[1],$x->[2])"; $n++; } print "].\n\n";
emit("ext_pict","Extended_Pictographic", ranges(prop_invlist("ExtPict")));
print <<'V';
Fixpoint range_mem (l : list (N * N)) (x : N) : bool :=
  match l with
  | [] => false
  | (lo, hi) :: l' => if x <? lo then false else if x <=? hi then true else range_mem l' x
  end.

Fixpoint lower_lookup (l : list (N * N * N * Z)) (x : N) : N :=
  match l with
  | [] => x
  | (lo, hi, stride, delta) :: l' =>
    if x <? lo then x
    else if (x <=? hi) && ((x - lo) mod stride =? 0) then Z.to_N (Z.of_N x + delta)
    else lower_lookup l' x
  end.

Fixpoint wb_lookup (l : list (N * N * wbclass)) (x : N) : wbclass :=
  match l with
  | [] => WOther
  | (lo, hi, c) :: l' => if x <? lo then WOther else if x <=? hi then c else wb_lookup l' x
  end.

(** A concrete instance of the Go tables. *)
Definition go_unicode : unicode := {|
  uIsPunct := range_mem gc_P;
  uIsSpace := range_mem white_space;
  uIsLetter := range_mem gc_L;
  uIsNumber := range_mem gc_N;
  uToLower := lower_lookup lower_runs
|}.
V
