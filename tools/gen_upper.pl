#!/usr/bin/perl
# Generates rocq/theories/UpperTable.v: the simple upper-case mapping (unicode.ToUpper) of perl's own Unicode database,
# in the form of lower_runs in UnicodeData.v.
use strict; use warnings;
use Unicode::UCD qw(prop_invmap);
my ($list,$map)=prop_invmap("Simple_Uppercase_Mapping");
my %up;
for my $i (0..$#$list){ my $m=$map->[$i]; next if $m == 0; my $hi=$i<$#$list?$list->[$i+1]-1:0x10FFFF; for my $c ($list->[$i]..$hi){ $up{$c}=$m+($c-$list->[$i]); } }
my @runs;
for my $c (sort {$a<=>$b} keys %up){ my $d=$up{$c}-$c; my $done=0;
  if(@runs){ my $r=$runs[-1]; # lo hi stride delta
    if($r->[3]==$d){ if($r->[0]==$r->[1] && $c-$r->[1]<=2){ $r->[2]=$c-$r->[1]; $r->[1]=$c; $done=1; } elsif($r->[0]!=$r->[1] && $c-$r->[1]==$r->[2]){ $r->[1]=$c; $done=1; } } }
  push @runs,[$c,$c,1,$d] unless $done; }
print "(** * UpperTable: capital letters. GENERATED by tools/gen_upper.pl from the Unicode database of perl (Unicode ".Unicode::UCD::UnicodeVersion()."). *)\n\n";
print "From Coq Require Import ZArith.\nFrom Verif Require Import Base.\nLocal Open Scope N_scope.\n\n";
print "(** Simple upper-case mapping: (lo, hi, stride, delta); cf. [UnicodeData.lower_runs]. *)\nDefinition upper_runs : list (N * N * N * Z) :=\n  ["; my $n=0;
for my $r (@runs){ print ";" if $n; print "\n   " if $n && $n%6==0; print " ($r->[0],$r->[1],$r->[2],($r->[3])%Z)"; $n++; } print "].\n";
