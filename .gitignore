*.vo
*.vok
*.vos
*.glob
*.aux
.*.aux
*.cache
.*.cache
rocq/Makefile
rocq/Makefile.conf
rocq/.Makefile.d
rocq/theories/.*.d
