rocq/Makefile
rocq/Makefile.conf
*.vo
*.vok
*.vos
*.glob
*.aux
.*.aux
rocq/.Makefile.d
.lia.cache
.nia.cache
